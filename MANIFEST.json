{
 "claims": [
  {
   "property": "C01",
   "status": "proved",
   "theorems": [
    "C01_run_terminates"
   ],
   "note": "Bound 1 + 3*records + left-over surfaces on loop iterations, for every oracle, cancellation schedule and left-over state; OFuel never occurs."
  },
  {
   "property": "C02",
   "status": "proved",
   "theorems": [
    "C02_output_order",
    "C02_l1bs_same"
   ],
   "note": "L1BS equals L1B except when writing the L1BS record itself raised."
  },
  {
   "property": "C03",
   "status": "proved",
   "theorems": [
    "C03_beamed_once",
    "C03_stack_once"
   ],
   "note": ""
  },
  {
   "property": "C04",
   "status": "proved",
   "theorems": [
    "C04_written_iff_enough_looks",
    "C04_written_enough_looks",
    "C04_decided_once"
   ],
   "note": ""
  },
  {
   "property": "C05",
   "status": "proved",
   "theorems": [
    "C05_no_burst_after_gap"
   ],
   "note": ""
  },
  {
   "property": "C06",
   "status": "partial",
   "theorems": [
    "C06_no_burst_before_gap_refuted",
    "C06_no_burst_before_gap_partial"
   ],
   "note": "False of the code: bursts that the surface loop left unprocessed before the gap are beam-formed for post-gap surfaces (processor.py 233-243, 266-272). Partial: holds when no pre-gap burst sees the post-gap surface."
  },
  {
   "property": "C07",
   "status": "partial",
   "theorems": [
    "C07_calibrated_once_refuted",
    "C07_calibrated_once_partial"
   ],
   "note": "False of the code: the first burst after a gap is calibrated at lines 205-206 both when the gap is found and when it is resumed. Partial: exactly once for every other burst used, exactly twice for those."
  },
  {
   "property": "C08",
   "status": "proved",
   "theorems": [
    "C08_nothing_pending"
   ],
   "note": ""
  },
  {
   "property": "C09",
   "status": "partial",
   "theorems": [
    "C09_whole_input_read_refuted",
    "C09_whole_input_read_partial",
    "C09_all_valid_partial"
   ],
   "note": "False of the code: an invalid/out-of-region record while no surface is queued ends the run. Partial: a normal end happens only at end of input or at such a record; with valid records only everything is read."
  },
  {
   "property": "C10",
   "status": "partial",
   "theorems": [
    "C10_closed_products_refuted",
    "C10_closed_products_after_gap_refuted",
    "C10_causes_partial"
   ],
   "note": "False of the code: fewer than 80 surfaces after the start or the last gap raises \"insufficient input records\" and leaves the files open. Partial: complete list of the causes when no numerical/writing step fails."
  },
  {
   "property": "C11",
   "status": "proved",
   "theorems": [
    "C11_cancel_truncates",
    "C11_cancel_prompt"
   ],
   "note": ""
  },
  {
   "property": "C12",
   "status": "partial",
   "theorems": [
    "C12_processed_partial",
    "C12_numbers_refuted",
    "C12_cancelled_refuted",
    "C12_left_surfaces_partial",
    "C12_run_independent_refuted"
   ],
   "note": "False of the code: source_isps/surf_locs survive a run, so bursts of an earlier file enter stacks of the next; even when all left-over bursts were processed, equal record numbers of the two files change the result (second witness); after a cancelled run the next product holds surfaces of the earlier file (third witness). Partial: left-over bursts that were processed and carry other record numbers do not matter; left-over surfaces come first and unchanged."
  },
  {
   "property": "C13",
   "status": "proved",
   "theorems": [
    "C13_trend_history",
    "C13_trend_zero_iff_full",
    "C13_run_trends"
   ],
   "note": ""
  },
  {
   "property": "C14",
   "status": "proved",
   "theorems": [
    "C14_nadir_in_list",
    "C14_nadir_position",
    "C14_no_beam_fails"
   ],
   "note": ""
  },
  {
   "property": "C15",
   "status": "proved",
   "theorems": [
    "C15_beam_list"
   ],
   "note": ""
  },
  {
   "property": "C16",
   "status": "proved",
   "theorems": [
    "C16_beam_of_surface",
    "C16_stack_complete"
   ],
   "note": ""
  },
  {
   "property": "C17",
   "status": "proved",
   "theorems": [
    "C17_look_index_range",
    "C17_look_index_position",
    "C17_look_index_distinct"
   ],
   "note": ""
  },
  {
   "property": "C18",
   "status": "proved",
   "theorems": [
    "C18_approx_row_defined",
    "C18_exact_row_defined"
   ],
   "note": ""
  },
  {
   "property": "C19",
   "status": "partial",
   "theorems": [
    "C19_weighted",
    "C19_size_and_support",
    "C19_centred",
    "C19_boxcar_ones",
    "C19_disabled_identity",
    "C19_hamming_shape_refuted",
    "C19_hanning_shape_refuted",
    "C19_width_one_refuted",
    "C19_shapes_exchanged_partial",
    "C19_symmetric_partial"
   ],
   "note": "False of the code: the hamming and hanning formulas are exchanged (azimuth_processing.py 61-66), width 1 gives NaN. Proved: size, support, centring, boxcar, disabled, weighting of both parts of every sample, and that the shapes are exactly exchanged, symmetric and within [0,1]."
  },
  {
   "property": "C20",
   "status": "proved",
   "theorems": [
    "C20_window",
    "C20_smallest_looks",
    "C20_total",
    "C20_type"
   ],
   "note": "numpy.argsort is any function returning a sorting permutation; the order of equal values is left open. The smallest-look part needs strict decrease/increase; a plateau counterexample is shown beside it."
  },
  {
   "property": "C21",
   "status": "proved",
   "theorems": [
    "C21_closest",
    "C21_empty_stack_keeps_index"
   ],
   "note": "Also shown: an empty stack keeps the previous surface's index."
  },
  {
   "property": "C22",
   "status": "proved",
   "theorems": [
    "C22_mean",
    "C22_count",
    "C22_masked_no_influence"
   ],
   "note": "Mean over Q; a sample without contributions is NaN (0/0)."
  },
  {
   "property": "C23",
   "status": "partial",
   "theorems": [
    "C23_start_stop",
    "C23_none_kept_partial",
    "C23_none_kept_waveform_refuted"
   ],
   "note": "False of the code for the waveform when no beam is kept (division before the test gives NaN). Everything else proved."
  },
  {
   "property": "C24",
   "status": "partial",
   "theorems": [
    "C24_start_stop_burst_refuted",
    "C24_ends_kept_partial"
   ],
   "note": "False of the code: lines 313-316 use the ends of the stack. Partial: exactly those ends are reported, so it holds when they are kept."
  },
  {
   "property": "C25",
   "status": "partial",
   "theorems": [
    "C25_outside_partial",
    "C25_inside_partial",
    "C25_interpolation_refuted",
    "C25_weighting_off_partial",
    "C25_weighting_per_beam_partial"
   ],
   "note": "False of the code: line 215 subtracts a weight from an angle. Partial: outside the table; inside, equality with the interpolation iff the two weights are equal or the left weight equals the left angle."
  },
  {
   "property": "C26",
   "status": "proved",
   "theorems": [
    "C26_masking_on",
    "C26_combined_mask",
    "C26_vector",
    "C26_apply",
    "C26_masking_off"
   ],
   "note": ""
  },
  {
   "property": "C27",
   "status": "partial",
   "theorems": [
    "C27_collision_refuted",
    "C27_only_collision_partial",
    "C27_same_position_partial"
   ],
   "note": "False of the code: the last and the last-but-one position share a vector value. Partial: that is the only collision."
  },
  {
   "property": "C28",
   "status": "proved",
   "theorems": [
    "C28_exactly_wrapped",
    "C28_counts"
   ],
   "note": ""
  },
  {
   "property": "C29",
   "status": "proved",
   "theorems": [
    "C29_shifts_inverse",
    "C29_shift_places",
    "C29_ones_neutral",
    "C29_divides_spectrum",
    "C29_off"
   ],
   "note": "Over exact complex numbers (pairs of reals). A table entry that is not positive gives non-finite samples and is the outcome None."
  },
  {
   "property": "C30",
   "status": "proved",
   "theorems": [
    "C30_switched_off",
    "C30_distance",
    "C30_reference_independent",
    "C30_total_shift"
   ],
   "note": ""
  },
  {
   "property": "C31",
   "status": "proved",
   "theorems": [
    "C31_reads_return_data"
   ],
   "note": "Data file, variable lengths and chunk size universally quantified; every read sequence over valid indices."
  },
  {
   "property": "C32",
   "status": "partial",
   "theorems": [
    "C32_stale_chunk_refuted",
    "C32_negative_refuted",
    "C32_first_read_partial",
    "C32_overlapping_chunk_partial"
   ],
   "note": "False of the code: when the requested index lies in a chunk wholly beyond the variable, the previous chunk is served; negative indices are also served. Partial: the first read, and any index whose chunk overlaps the variable, are rejected."
  },
  {
   "property": "C33",
   "status": "partial",
   "theorems": [
    "C33_limits",
    "C33_any_limit",
    "C33_all_but_last_partial",
    "C33_empty_region_partial",
    "C33_last_record_refuted"
   ],
   "note": "False of the code: the last record of the region is dropped because the maximum index is used as an exclusive bound. Partial: exactly all records from the first to the one before the last are delivered; an empty region raises. A record delivered keeps every limit set, whichever are set."
  },
  {
   "property": "C34",
   "status": "proved",
   "theorems": [
    "C34_same_sequence",
    "C34_whole_file"
   ],
   "note": ""
  },
  {
   "property": "C35",
   "status": "partial",
   "theorems": [
    "C35_success",
    "C35_supplied",
    "C35_fill_partial",
    "C35_earlier_untouched",
    "C35_count_partial",
    "C35_leftover_refuted",
    "C35_count_refuted"
   ],
   "note": "False of the code after a failed write: the half-written row stays and is mixed into the next record where that supplies nothing, and the record count grows. Proved: supplied values are always stored, earlier rows untouched; partial: fill and count without a failure right before."
  },
  {
   "property": "C36",
   "status": "partial",
   "theorems": [
    "C36_elapsed",
    "C36_calendar_partial",
    "C36_midnight_refuted",
    "C36_leap_second_refuted",
    "C36_first_surface_written",
    "C36_first_surface_refuted"
   ],
   "note": "False of the code at exact midnight, inside a leap second and for the first surface (day 1, whole TAI as seconds). Partial: calendar pair for all other instants between bursts of the same or consecutive days, over any calendar with leap seconds."
  },
  {
   "property": "C37",
   "status": "partial",
   "theorems": [
    "C37_range",
    "C37_decode_partial",
    "C37_decode_refuted"
   ],
   "note": "False of the code as equality: conversion to int8 truncates. Range proved for scaled and stored numbers; partial: error below one step."
  },
  {
   "property": "C38",
   "status": "proved",
   "theorems": [
    "C38_exact",
    "C38_names",
    "C38_distinct",
    "C38_directory",
    "C38_collision"
   ],
   "note": "File and path names as strings; directory part handled with POSIX rules."
  },
  {
   "property": "C39",
   "status": "proved",
   "theorems": [
    "C39_no_version",
    "C39_no_changelog",
    "C39_no_default",
    "C39_upgrade",
    "C39_up_to_date",
    "C39_missing_default"
   ],
   "note": "JSON documents as values; the default document is any one with that version and changelog. An addition the default lacks makes the upgrade raise (proved). Serialisation round trip assumed."
  },
  {
   "property": "C40",
   "status": "proved",
   "theorems": [
    "C40_command",
    "C40_idempotent",
    "C40_version",
    "C40_loadable"
   ],
   "note": "Idempotence for arbitrary documents; version and loadability for well-formed ones. The command: with all three files readable and upgradable, all or none are upgraded."
  },
  {
   "property": "C41",
   "status": "proved",
   "theorems": [
    "C41_versions",
    "C41_accepted",
    "C41_values",
    "C41_keywords_only"
   ],
   "note": "Numbers as exact rationals; booleans count as 0/1 like in Python. Entries without a value also make loading fail (part of the characterisation)."
  },
  {
   "property": "C42",
   "status": "proved",
   "theorems": [
    "C42_reads",
    "C42_present",
    "C42_typed",
    "C42_absent_mandatory",
    "C42_absent_optional",
    "C42_declared",
    "C42_declared_present",
    "C42_stable"
   ],
   "note": "Conversions are oracles. A typed optional parameter without default raises when absent and a subclass sees no parameters (examples); neither is declared in the repository."
  },
  {
   "property": "C43",
   "status": "proved",
   "theorems": [
    "C43_available",
    "C43_value"
   ],
   "note": "Availability for every hierarchy with a C3 resolution order; value for single inheritance. The bare except is modelled as: any failure gives the default."
  },
  {
   "property": "C44",
   "status": "partial",
   "theorems": [
    "C44_single_partial",
    "C44_found_partial",
    "C44_multiple_refuted"
   ],
   "note": "False with two bases declaring the same name; agreement proved for single inheritance, same set of names always."
  },
  {
   "property": "C45",
   "status": "partial",
   "theorems": [
    "C45_answers_partial",
    "C45_exit_refuted"
   ],
   "note": "Holds unless a configuration file exits the interpreter (SystemExit is not caught): then later queries ignore the local file. Mutation of the returned dictionary by callers not modelled."
  },
  {
   "property": "C46",
   "status": "partial",
   "theorems": [
    "C46_isolated_partial",
    "C46_outside_partial",
    "C46_separator_refuted"
   ],
   "note": "File system is a finite tree (no links, permissions, concurrency). Holds for names that are single path components, for every history including failing calls; false for names with separators (witness)."
  },
  {
   "property": "C47",
   "status": "proved",
   "theorems": [
    "C47_workspace_keeps",
    "C47_workspace_refused",
    "C47_workspace_result",
    "C47_workspace_accepted",
    "C47_config",
    "C47_config_refused"
   ],
   "note": "All names and trees. A name taken by an empty directory is accepted."
  },
  {
   "property": "C48",
   "status": "proved",
   "theorems": [
    "C48_workspace",
    "C48_workspace_taken",
    "C48_independent",
    "C48_config",
    "C48_config_taken",
    "C48_missing"
   ],
   "note": "Single-component names. Independence: all later histories that do not name the workspace."
  },
  {
   "property": "C49",
   "status": "partial",
   "theorems": [
    "C49_web_partial",
    "C49_workspace_partial",
    "C49_config_partial",
    "C49_workspace_refuted",
    "C49_workspace_onto",
    "C49_workspace_file",
    "C49_config_taken",
    "C49_config_refuted"
   ],
   "note": "False of the code: renaming a workspace onto an existing one moves it inside that one (shutil.move), a configuration onto an existing empty one succeeds. Partial: free target names; the other target cases are characterised."
  },
  {
   "property": "C50",
   "status": "partial",
   "theorems": [
    "C50_current_listed_partial",
    "C50_sound_partial",
    "C50_selected_partial",
    "C50_current_listed_refuted"
   ],
   "note": "False of the code for bare manager operations (web rename): the selection keeps the old name (witness). Partial: all sessions of command-line, web and manager calls with ordinary names and no bare delete or rename, from any sound tree."
  },
  {
   "property": "C51",
   "status": "partial",
   "theorems": [
    "C51_all",
    "C51_deletes_partial",
    "C51_missing",
    "C51_empty_refuted",
    "C51_empty"
   ],
   "note": "False of the code for the empty name and \"..\": all workspaces are deleted. Partial: proper names delete exactly themselves."
  },
  {
   "property": "C52",
   "status": "proved",
   "theorems": [
    "C52_notebooks",
    "C52_workspaces",
    "C52_configs",
    "C52_configs_none",
    "C52_history",
    "C52_all_entries"
   ],
   "note": "Any tree without duplicate entry names, an invariant of every history (C52_history). Also the notebooks of a workspace."
  },
  {
   "property": "C53",
   "status": "partial",
   "theorems": [
    "C53_all",
    "C53_one",
    "C53_many_partial",
    "C53_duplicates_refuted",
    "C53_inputs"
   ],
   "note": "False of the code for several overlapping patterns (duplicates); fnmatch is an oracle. Partial: membership, order and multiplicity."
  },
  {
   "property": "C54",
   "status": "proved",
   "theorems": [
    "C54_unique",
    "C54_bound",
    "C54_commands"
   ],
   "note": "Names as lists; the loop bound is shown to suffice and not to matter."
  },
  {
   "property": "C55",
   "status": "proved",
   "theorems": [
    "C55_listed",
    "C55_fresh",
    "C55_keeps",
    "C55_no_workspace"
   ],
   "note": "Loop with an explicit bound that suffices. Base names without separator."
  },
  {
   "property": "C56",
   "status": "proved",
   "theorems": [
    "C56_limit",
    "C56_refused"
   ],
   "note": "Titles as strings; every limit."
  },
  {
   "property": "C57",
   "status": "proved",
   "theorems": [
    "C57_exact",
    "C57_first_failure",
    "C57_once",
    "C57_exclusive",
    "C57_selected",
    "C57_job"
   ],
   "note": "Building a processor and processing an input are oracles with arbitrary effects on the tree and arbitrary failures, depending on everything before."
  },
  {
   "property": "C58",
   "status": "partial",
   "theorems": [
    "C58_resolved_partial",
    "C58_independent_refuted",
    "C58_relative_refuted"
   ],
   "note": "False of the code for mixed kinds and an omitted second product (witnesses). Partial: the first product always, the second one of the same kind."
  },
  {
   "property": "C59",
   "status": "partial",
   "theorems": [
    "C59_balanced",
    "C59_starting",
    "C59_start_fails",
    "C59_restart_refuted"
   ],
   "note": "All task programs (raise, catch, nest, restart, cancel). Passing on of the result is false only for a task that restarts its own monitor with a total below a monitor without one (done raises TypeError); proved for tasks that do not restart it."
  },
  {
   "property": "C60",
   "status": "proved",
   "theorems": [
    "C60_conserved",
    "C60_every_depth",
    "C60_cancel"
   ],
   "note": "Ancestors started with non-zero totals; otherwise progress raises (example beside). Amounts are exact rationals."
  },
  {
   "property": "C61",
   "status": "partial",
   "theorems": [
    "C61_progress_bounded_refuted",
    "C61_progress_bounded_partial",
    "C61_no_gap_partial"
   ],
   "note": "False of the code: each gap adds up to one unit of work to the one unit per record. Partial: work <= records read + number of gaps."
  },
  {
   "property": "C62",
   "status": "proved",
   "theorems": [
    "C62_fails",
    "C62_done",
    "C62_text",
    "C62_lines",
    "C62_ties",
    "C62_bar_width",
    "C62_no_remains"
   ],
   "note": "Texts without line breaks; terminal modelled as one line with overwrite semantics and unbounded width."
  },
  {
   "property": "C63",
   "status": "proved",
   "theorems": [
    "C63_normalize",
    "C63_needs_positive"
   ],
   "note": "Real numbers instead of floats (also C64-C68, C81, C82); the loops have an explicit bound, shown to suffice for every angle."
  },
  {
   "property": "C64",
   "status": "proved",
   "theorems": [
    "C64_surface",
    "C64_normal",
    "C64_symmetry"
   ],
   "note": "Any ellipsoid with 0 < minor <= major."
  },
  {
   "property": "C65",
   "status": "partial",
   "theorems": [
    "C65_north_partial",
    "C65_south",
    "C65_south_refuted"
   ],
   "note": "False of the code at the south pole: the altitude has the wrong sign (witness). Partial: north."
  },
  {
   "property": "C66",
   "status": "proved",
   "theorems": [
    "C66_angle",
    "C66_scale",
    "C66_special"
   ],
   "note": "Vectors of any equal lengths; zero vectors give not-a-number."
  },
  {
   "property": "C67",
   "status": "proved",
   "theorems": [
    "C67_angle",
    "C67_weight",
    "C67_resolution",
    "C67_waiting",
    "C67_after_first",
    "C67_times"
   ],
   "note": "Not-a-number results are explicit. The increase of times is proved over all histories of bursts not sparser than the surfaces; an example shows it fails otherwise."
  },
  {
   "property": "C68",
   "status": "partial",
   "theorems": [
    "C68_target",
    "C68_last",
    "C68_when",
    "C68_closest_partial",
    "C68_at_target_refuted",
    "C68_only",
    "C68_once",
    "C68_kept"
   ],
   "note": "False when the predecessor lies exactly on the target: the position becomes not-a-number (witness). Partial: all other cases, all histories; the condition for moving is exact."
  },
  {
   "property": "C69",
   "status": "proved",
   "theorems": [
    "C69_energy",
    "C69_samples"
   ],
   "note": ""
  },
  {
   "property": "C70",
   "status": "proved",
   "theorems": [
    "C70_cal1",
    "C70_neutral",
    "C70_off"
   ],
   "note": ""
  },
  {
   "property": "C71",
   "status": "proved",
   "theorems": [
    "C71_exact",
    "C71_approximate",
    "C71_energy"
   ],
   "note": ""
  },
  {
   "property": "C72",
   "status": "partial",
   "theorems": [
    "C72_agree_at_nadir_partial",
    "C72_short_list_refuted"
   ],
   "note": "False of the code: when the burst sees fewer than half of the beams the approximate method stores an off-centre bin. Partial: they agree whenever the list contains position N/2 (N even)."
  },
  {
   "property": "C73",
   "status": "proved",
   "theorems": [
    "C73_phase_only",
    "C73_integer_shift"
   ],
   "note": ""
  },
  {
   "property": "C74",
   "status": "proved",
   "theorems": [
    "C74_power",
    "C74_mean",
    "C74_empty",
    "C74_gain",
    "C74_radar_equation",
    "C74_area"
   ],
   "note": "Logarithm arguments positive; an empty stack gives NaN."
  },
  {
   "property": "C75",
   "status": "proved",
   "theorems": [
    "C75_times",
    "C75_single_record_region"
   ],
   "note": "Non-empty delivered range; for a region holding only record 0 nothing is delivered and reading the last time raises (C75_single_record_region)."
  },
  {
   "property": "C76",
   "status": "proved",
   "theorems": [
    "C76_waveform"
   ],
   "note": "Rounding is any round-to-nearest; exact rationals."
  },
  {
   "property": "C77",
   "status": "proved",
   "theorems": [
    "C77_globals"
   ],
   "note": ""
  },
  {
   "property": "C78",
   "status": "partial",
   "theorems": [
    "C78_shipped_load",
    "C78_upgradable",
    "C78_changelog_declared",
    "C78_complete_partial",
    "C78_antenna_refuted"
   ],
   "note": "False for the characterisation file: the shipped CHD.json lacks the three antenna table parameters; proved for everything else."
  },
  {
   "property": "C79",
   "status": "partial",
   "theorems": [
    "C79_isolated_partial",
    "C79_delete",
    "C79_empty_refuted"
   ],
   "note": "Single-component names; the empty configuration name deletes all configurations (witness)."
  },
  {
   "property": "C80",
   "status": "partial",
   "theorems": [
    "C80_current_listed_partial",
    "C80_current_listed_refuted"
   ],
   "note": "False of the code for bare manager operations, as C50. Partial: sessions with ordinary names and no bare delete or rename."
  },
  {
   "property": "C81",
   "status": "partial",
   "theorems": [
    "C81_round_trip_partial",
    "C81_longitude",
    "C81_equator",
    "C81_symmetric"
   ],
   "note": "Partial: exact on the ellipsoid and on the equator; at other altitudes the closed formula used is an approximation (C111 bounds its error). Requires a flattening consistent with the axes."
  },
  {
   "property": "C82",
   "status": "proved",
   "theorems": [
    "C82_beneath",
    "C82_window_delay"
   ],
   "note": "Exact real arithmetic."
  },
  {
   "property": "C83",
   "status": "proved",
   "theorems": [
    "C83_config",
    "C83_copies"
   ],
   "note": "Ordinary names: no separators, line breaks, and not the marker name. Removal and renaming of the selected workspace is C50_selected_partial."
  },
  {
   "property": "C84",
   "status": "proved",
   "theorems": [
    "C84_defined",
    "C84_visible",
    "C84_complete"
   ],
   "note": "Exact real arithmetic; cst.pi taken equal to pi. A velocity or distance of zero is an explicit outcome."
  },
  {
   "property": "C85",
   "status": "partial",
   "theorems": [
    "C85_doppler",
    "C85_nadir_look_partial",
    "C85_nadir_look_refuted"
   ],
   "note": "False of the code: the angle between the velocity and its own projection is never above pi/2, so lines 926-927 always negate it; for a climbing satellite the look angle below is twice the (negative) angle of climb. Partial: zero when not climbing; the exact value otherwise."
  },
  {
   "property": "C86",
   "status": "partial",
   "theorems": [
    "C86_accepts",
    "C86_filled",
    "C86_once",
    "C86_once_dims",
    "C86_fill_partial",
    "C86_fill_refuted"
   ],
   "note": "The tables are extracted from the define_variable and write_record calls. Fill values: false of the code for the L1BS beam form (8-bit type, fill 65535); partial: all others."
  },
  {
   "property": "C87",
   "status": "partial",
   "theorems": [
    "C87_survives_partial",
    "C87_capacity",
    "C87_look_refuted",
    "C87_padding_refuted"
   ],
   "note": "False of the code for the look angles of the extended product (packed around pi/2, values around 0) and for unused entries of the beam angle arrays (they read back as beam angles). Partial: the listed ranges; the exact interval of every packed variable is C87_capacity."
  },
  {
   "property": "C88",
   "status": "partial",
   "theorems": [
    "C88_units_partial",
    "C88_attitude_refuted",
    "C88_agree_partial",
    "C88_surface_type_refuted",
    "C88_beam_refuted"
   ],
   "note": "False of the code: L1BS attitude angles are in radians but declared in degrees; the L1BS surface type is always 0; the beam angle of the standard product is minus the look angle. Partial: all other quantities; the lists of differing names are exhaustive."
  },
  {
   "property": "C89",
   "status": "proved",
   "theorems": [
    "C89_gps"
   ],
   "note": "Leap seconds between GPS and TAI are constant (19 s)."
  },
  {
   "property": "C90",
   "status": "partial",
   "theorems": [
    "C90_angles",
    "C90_copied",
    "C90_pointing_unused",
    "C90_attitude_refuted"
   ],
   "note": "False of the code for the attitude: roll, pitch and yaw are read from the antenna mispointing variables, and the satellite attitude variables are not used but for the window delay (witness). Copied variables: proved for all."
  },
  {
   "property": "C91",
   "status": "partial",
   "theorems": [
    "C91_delay_partial",
    "C91_delay_refuted"
   ],
   "note": "False of the code: the pitch angle, read in degrees, goes to the cosine without conversion; a pitch of about one degree shifts the range by more than a quarter of the offset. Partial: no pitch, and an error bound up to one degree."
  },
  {
   "property": "C92",
   "status": "proved",
   "theorems": [
    "C92_power"
   ],
   "note": "Exact real arithmetic."
  },
  {
   "property": "C93",
   "status": "proved",
   "theorems": [
    "C93_window",
    "C93_total",
    "C93_empty"
   ],
   "note": "curve_fit is an oracle (parameters, a caught exception, another exception). Exact real arithmetic (also C94-C96)."
  },
  {
   "property": "C94",
   "status": "partial",
   "theorems": [
    "C94_relative_partial",
    "C94_half_refuted",
    "C94_scale",
    "C94_max_refuted"
   ],
   "note": "False of the code: only the first half of the samples counts, and the maximum stack power is relative, so it does not change when the echoes are amplified (witnesses). Partial: relative powers of the first half; the invariance of all parameters is proved."
  },
  {
   "property": "C95",
   "status": "partial",
   "theorems": [
    "C95_points",
    "C95_bell_partial",
    "C95_std_refuted",
    "C95_sign_refuted",
    "C95_failed_refuted"
   ],
   "note": "False of the code: the stated standard deviation is c/2 where that of the fitted bell is |c|/sqrt 2, it can be negative, and a failed fit is stated as 1, 1, 1/2. Partial: the bell expressed in the stated numbers. The fit gets exactly the finite points with their own angles (proved)."
  },
  {
   "property": "C96",
   "status": "proved",
   "theorems": [
    "C96_moments",
    "C96_amplitude",
    "C96_single"
   ],
   "note": "Moments of the fitted curve sampled at the beams, as computed; a constant curve is an explicit outcome."
  },
  {
   "property": "C97",
   "status": "proved",
   "theorems": [
    "C97_products",
    "C97_empty",
    "C97_others"
   ],
   "note": "A file is its variable names and the values of one- and two-dimensional variables, without masked entries; conversion of times to dates is left out. Exact real arithmetic (also C98-C101)."
  },
  {
   "property": "C98",
   "status": "partial",
   "theorems": [
    "C98_proportional_partial",
    "C98_inverted_refuted",
    "C98_zero_refuted"
   ],
   "note": "False of the code: the variable read as a scale is the sigma0 scaling factor in dB, so waveforms are shown upside down when it is negative and as zero when it is 0 dB (witnesses for all three products). Partial: proportional record by record. Packing (C87) is left out."
  },
  {
   "property": "C99",
   "status": "partial",
   "theorems": [
    "C99_limits_partial",
    "C99_3d",
    "C99_hist",
    "C99_all_shown",
    "C99_zero_refuted",
    "C99_swapped_refuted"
   ],
   "note": "False of the code: a limit of 0 is ignored, choosing a variable in the notebook uses the upper limit twice, drawing lines outside it the lower limit twice (witnesses). Partial: limits other than 0."
  },
  {
   "property": "C100",
   "status": "partial",
   "theorems": [
    "C100_figure_partial",
    "C100_data_refuted",
    "C100_offered"
   ],
   "note": "False of the code: the waveforms are drawn whatever variable is named (proved for all files; witness where all of it lies outside the colour range). Partial: for which names a figure is made, and its limits."
  },
  {
   "property": "C101",
   "status": "partial",
   "theorems": [
    "C101_delta",
    "C101_swap",
    "C101_same",
    "C101_delta_axis",
    "C101_axis_refuted"
   ],
   "note": "The clause on axes is false of the code for the waveforms: they are drawn on the axis of the differences (proved for all products compared with themselves)."
  },
  {
   "property": "C102",
   "status": "partial",
   "theorems": [
    "C102_add_command_partial",
    "C102_confirmation",
    "C102_command",
    "C102_add_partial",
    "C102_same_name_refuted",
    "C102_unknown_ws_refuted",
    "C102_remove_partial",
    "C102_escape_refuted"
   ],
   "note": "False of the code: files with equal names overwrite one another silently, an unknown workspace is created, and names that contain paths remove files elsewhere (witnesses). Partial: distinct plain names in an existing workspace. The command removes, when confirmed, exactly the files meant by the patterns."
  },
  {
   "property": "C103",
   "status": "partial",
   "theorems": [
    "C103_command",
    "C103_clean_partial",
    "C103_missing",
    "C103_stops_refuted"
   ],
   "note": "False of the code: a directory among the outputs stops the removal part-way (proved in general). Partial: directories of files. The command refuses when no product is listed, and else removes also files that are no products."
  },
  {
   "property": "C104",
   "status": "partial",
   "theorems": [
    "C104_directory",
    "C104_file",
    "C104_path",
    "C104_total",
    "C104_guess_refuted",
    "C104_lower"
   ],
   "note": "Paths of single-byte characters on a POSIX system. False of the code: the guess of the format ignores case and the check does not (\"x.Pdf\"), and every path with another extension, including a directory with a dot, is refused."
  },
  {
   "property": "C105",
   "status": "partial",
   "theorems": [
    "C105_pages_partial",
    "C105_reopened_refuted",
    "C105_directory_partial",
    "C105_same_name_refuted",
    "C105_needs_name"
   ],
   "note": "Figures are opaque and count as written when they are added. False of the code: saving after closing starts the file again, and equal names replace one another, in particular for the two products of a comparator. Partial: until the first closing; distinct plain names."
  },
  {
   "property": "C106",
   "status": "partial",
   "theorems": [
    "C106_inspect_partial",
    "C106_quote_refuted",
    "C106_compare_partial",
    "C106_mark_refuted"
   ],
   "note": "Characters below 256; the text is taken to the file unchanged; JSON and Python are read by small readers for the escapes that occur. False of the code: a quote in the path ends the JSON string (proved for all such paths), and a first path with the mark of the second is replaced in turn (witness)."
  },
  {
   "property": "C107",
   "status": "partial",
   "theorems": [
    "C107_direct_partial",
    "C107_xterm_partial",
    "C107_gnome_partial",
    "C107_names_refuted",
    "C107_doubled"
   ],
   "note": "Linux, nothing configured; a small reader for shell words without expansions. False of the code: quotes, backslashes, dollars and backquotes, and without a terminal braces, are not escaped (witnesses). Partial: xterm, GNOME and no terminal; names without these characters."
  },
  {
   "property": "C108",
   "status": "partial",
   "theorems": [
    "C108_load_partial",
    "C108_created_refuted",
    "C108_upgraded",
    "C108_mission"
   ],
   "note": "The first clause is false of the shipped data: CHD.json for CryoSat-2 is of version 0 and is refused until it is upgraded. Everything else is proved."
  },
  {
   "property": "C109",
   "status": "partial",
   "theorems": [
    "C109_saved_partial",
    "C109_read",
    "C109_missing_refuted",
    "C109_atomic_refuted"
   ],
   "note": "json.dumps and json.load are arbitrary functions. False of the code: a section not sent replaces its file by null, after which the configuration cannot be read; a failure leaves earlier files replaced (both proved in general)."
  },
  {
   "property": "C110",
   "status": "partial",
   "theorems": [
    "C110_monotone_partial",
    "C110_turning_refuted",
    "C110_empty",
    "C110_all"
   ],
   "note": "Exact real arithmetic, no masked entries. False of the code: the first and last values are returned (proved wrong for every pass over a turning point). Partial: monotone tracks."
  },
  {
   "property": "C111",
   "status": "proved",
   "theorems": [
    "C111_latitude",
    "C111_altitude",
    "C111_too_far_north",
    "C111_satellite",
    "C111_ground",
    "C111_shipped_inconsistent"
   ],
   "note": "Exact real arithmetic (rounding of doubles is not modelled). The altitude statements exclude the zone within a metre of the axis, where the code uses another formula (C81)."
  },
  {
   "property": "C112",
   "status": "proved",
   "theorems": [
    "C112_stack_complete",
    "C112_products_complete",
    "C112_every_surface",
    "C112_no_missing_burst",
    "C112_lookahead_needed"
   ],
   "note": "The geometry is an oracle restricted to regular passes (FullSpec.regular); the code's constants (64 pulses, 80 surfaces) satisfy the condition. A witness shows that locating fewer surfaces in advance loses bursts."
  },
  {
   "property": "C113",
   "status": "proved",
   "theorems": [
    "C113_burst_attributes",
    "C113_surface_attributes",
    "C113_orders"
   ],
   "note": "Values are abstract; the attributes read and set by each algorithm are tables transcribed from the source, a conditional read counting as a read. Index errors and errors inside the numerical functions are left out."
  },
  {
   "property": "C114",
   "status": "partial",
   "theorems": [
    "C114_no_memory",
    "C114_as_alone",
    "C114_empty_stack_partial",
    "C114_empty_stack_refuted",
    "C114_located",
    "C114_first_surface_refuted"
   ],
   "note": "Same tables as C113. False of the code in two places: a surface seen by no burst gets the closest-burst index of the surface before (it is then not written), and the first surface of a pass or after a gap keeps the UTC reference of the one before (proved for all states). Everything else is proved."
  },
  {
   "property": "C115",
   "status": "proved",
   "theorems": [
    "C115_look",
    "C115_peak",
    "C115_focus",
    "C115_mean",
    "C115_same",
    "C115_off_beam",
    "C115_ambiguity"
   ],
   "note": "Exact real arithmetic, cst.pi equal to pi, no azimuth window. The echo model (PointSpec.echo_sample) is a deramped point target with constant speed over the burst, and a Doppler shift acting as a delay of f*T/B; its sign conventions are those under which the code is right."
  },
  {
   "property": "C116",
   "status": "proved",
   "theorems": [
    "C116_text",
    "C116_errors",
    "C116_order",
    "C116_product"
   ],
   "note": "Times are exact rationals: the rounding of the double and timedelta's own floating-point split are not modelled; days have 86400 seconds, as in the code."
  },
  {
   "property": "C117",
   "status": "partial",
   "theorems": [
    "C117_workspace",
    "C117_config",
    "C117_selection_refuted"
   ],
   "note": "False of the code in one part: deleting a workspace that is not selected moves the selection (proved for all trees with a workspace called default). The rest is proved."
  },
  {
   "property": "C118",
   "status": "partial",
   "theorems": [
    "C118_operations",
    "C118_selected_partial",
    "C118_selected_refuted",
    "C118_list_partial",
    "C118_list_refuted",
    "C118_json_refuted",
    "C118_object_refuted"
   ],
   "note": "Proved: the objects returned by select, create, copy and rename. False of the code: the selected workspace is said not to be selected, and its directory is wrong unless the manager uses the default place (proved as an equivalence); plain files are listed as workspaces; the JSON form never reads back; saving always fails; an opened workspace has the directory above it."
  },
  {
   "property": "C119",
   "status": "proved",
   "theorems": [
    "C119_amplified",
    "C119_gain",
    "C119_phase",
    "C119_superposition",
    "C119_multilook"
   ],
   "note": "Exact arithmetic, exact beam-forming method, no azimuth window; powers of the looks over R, multilooking over Q. A calibration that gives samples which are not finite gives no image in the model. Also proved: an automatic gain d decibel higher divides the powers by 10^(d/10), with CAL1 on."
  },
  {
   "property": "C120",
   "status": "proved",
   "theorems": [
    "C120_tracking",
    "C120_order"
   ],
   "note": "Exact real arithmetic, cst.pi equal to pi, stated on calibrated samples (CAL2 corrects positions in the window, so it does not commute with a shift); sign convention of the echo as in C115."
  },
  {
   "property": "C121",
   "status": "partial",
   "theorems": [
    "C121_convert_partial",
    "C121_surfaces_partial",
    "C121_records",
    "C121_result_partial",
    "C121_angles",
    "C121_image",
    "C121_axis_refuted"
   ],
   "note": "Exact real arithmetic, cst.pi equal to pi. False of the code within a metre and a half of the axis, where the test for the axis is a square and the altitude has the wrong sign in the south (witness and proof). Partial: surfaces found clear of the axis; angles and powers without this condition."
  },
  {
   "property": "C122",
   "status": "proved",
   "theorems": [
    "C122_instance",
    "C122_ends",
    "C122_parallel",
    "C122_stack",
    "C122_looks",
    "C122_products",
    "C122_calibrations",
    "C122_twice"
   ],
   "note": "Exact real arithmetic; the loop, surfaces, beams and looks are the models of C01-C10, C67, C68, C84 and C119. Looks with the exact beam-forming method and no azimuth window; stacks and looks stated without focusing (with it the last surface moves after it was seen). Which looks are kept and in which order (C26-C29) is an arbitrary function of the look angles. A velocity for which the arc cosine fails counts as a failure of azimuth processing: the run ends with the same products. Calibration is in place, so the burst of a gap is calibrated again when the run resumes with it (a defect of the code, C07): C122_calibrations, C122_twice."
  },
  {
   "property": "C123",
   "status": "partial",
   "theorems": [
    "C123_waves_partial",
    "C123_laid_partial",
    "C123_circle",
    "C123_file_partial",
    "C123_moved_partial"
   ],
   "note": "As C121: false of the code within a metre and a half of the polar axis, so partial: as long as the surfaces found (on a steady pass: the surfaces laid) are clear of the axis; latitudes and longitudes within the range of one normalisation. On a circular pass above the equator this premise is not needed (C123_circle). Also proved for the waveforms and for the records of the L1B file."
  },
  {
   "property": "C124",
   "status": "proved",
   "theorems": [
    "C124_echoes",
    "C124_louder",
    "C124_phase"
   ],
   "note": "Same model as C122; multilooking after the looks is the subject of C119."
  },
  {
   "property": "C125",
   "status": "partial",
   "theorems": [
    "C125_axis",
    "C125_centre",
    "C125_longitude",
    "C125_located",
    "C125_equator",
    "C125_bound",
    "C125_shipped",
    "C125_near_refuted"
   ],
   "note": "Exact real arithmetic; a division by zero (points deep inside the Earth) is an outcome of its own. Partial: the error bound depends on the number of iterations made, because the test for convergence of the code does not imply accuracy (witness and proof). Points nearer to the centre than nine tenths of the radius are not covered, except on the axis."
  },
  {
   "property": "C126",
   "status": "partial",
   "theorems": [
    "C126_names",
    "C126_names_refuted",
    "C126_readonly",
    "C126_size",
    "C126_size_changes",
    "C126_lists",
    "C126_lists_missing",
    "C126_lists_current",
    "C126_distinct",
    "C126_version",
    "C126_status",
    "C126_status_session_partial",
    "C126_status_refuted"
   ],
   "note": "Argument parsing is left out; a file has as many bytes as characters; texts of locations and of system errors are parameters. No links, permissions or other processes. Partial: status in sessions with ordinary names; false after a web client renames the current workspace (witness and proof). The names in the status can be read back when none has a comma, and not otherwise (witness)."
  },
  {
   "property": "C127",
   "status": "partial",
   "theorems": [
    "C127_exactly",
    "C127_only",
    "C127_failure",
    "C127_repeat",
    "C127_workspace",
    "C127_home",
    "C127_each",
    "C127_listing",
    "C127_succeeds",
    "C127_overwritten_refuted",
    "C127_dummy_names",
    "C127_dummy_work",
    "C127_dummy"
   ],
   "note": "What a product says is an arbitrary function of the configuration texts, the name and the content of the input; a product appears with its final content also when processing fails half way. No links, permissions or full disks. Partial: inputs whose names differ only in the prefix \"L1A\" share a product, the first is lost (witness and proof)."
  },
  {
   "property": "C128",
   "status": "proved",
   "theorems": [
    "C128_times",
    "C128_clock",
    "C128_shift",
    "C128_gaps_decide"
   ],
   "note": "Exact arithmetic: rounding of large times is left out. Same model as C122; the surface found first takes the time of the first record, later ones are mixed of the times of two records."
  },
  {
   "property": "C129",
   "status": "partial",
   "theorems": [
    "C129_curve",
    "C129_drawn",
    "C129_offered",
    "C129_session_partial",
    "C129_complete",
    "C129_started_refuted",
    "C129_cross",
    "C129_marker_partial",
    "C129_marker_refuted",
    "C129_waveform",
    "C129_names_partial",
    "C129_names_refuted"
   ],
   "note": "Only the data handed to the plotting library and the widgets are modelled. False of the code: started with the name of an abscissa the first ordinate may be over a dimension of another size (no curve); with a negative index the line in the image is not at the row shown; names of variables with a dash can give equal figure names (witnesses). Partial: sessions started without an abscissa or with a dimension selector, indices that are not negative, names without a dash."
  },
  {
   "property": "C130",
   "status": "partial",
   "theorems": [
    "C130_inspect",
    "C130_compare_partial",
    "C130_compare_refuted"
   ],
   "note": "The text of a notebook is a function of the paths; the notebook server is not started in the model. False of the code for comparisons: whether the second name is a path is decided by the first one, and without a second name the command fails with a TypeError (witnesses). Partial: both names are paths or both are names of outputs."
  },
  {
   "property": "C131",
   "status": "partial",
   "theorems": [
    "C131_negative",
    "C131_unknown",
    "C131_joined",
    "C131_forms",
    "C131_status",
    "C131_group",
    "C131_lower",
    "C131_layout",
    "C131_sharing",
    "C131_distinct",
    "C131_attributes",
    "C131_names",
    "C131_workspace",
    "C131_config",
    "C131_others",
    "C131_between_refuted",
    "C131_shortened",
    "C131_confirmed"
   ],
   "note": "argparse is modelled after Python 3.6; the separator -- and flags written together are outside. False of the code: an option between two words of copy, rename, compare, input add or input remove makes the line an error (proved for all names). Everything else holds for options before and after the words. ArgMoreProps adds negative numbers, unknown options, joined and = forms, groups without a command."
  },
  {
   "property": "C132",
   "status": "proved",
   "theorems": [
    "C132_decisions",
    "C132_ended",
    "C132_products",
    "C132_common",
    "C132_sharp"
   ],
   "note": ""
  },
  {
   "property": "C133",
   "status": "partial",
   "theorems": [
    "C133_complete_partial",
    "C133_split_partial",
    "C133_left_over_refuted",
    "C133_beam_numbers_refuted",
    "C133_too_short_refuted"
   ],
   "note": "False of the code in three ways (witnesses): bursts left over before the gap become looks of surfaces after it; the numbers of the beams after the gap depend on the bursts before it, since the trend is not reset; a part with too few surfaces fails alone but is processed when a gap follows. Partial: no burst left over, the exact method, and the numbers of beams aside."
  },
  {
   "property": "C134",
   "status": "partial",
   "theorems": [
    "C134_surfaces",
    "C134_bursts",
    "C134_bounded_partial",
    "C134_bounded_refuted"
   ],
   "note": "False of the code without the premises: bursts are released only when a surface is written, so on a regular pass with too few looks per surface all bursts are held at the end, whatever the length (proved for every length). Partial: the bound with the premises named."
  },
  {
   "property": "C135",
   "status": "partial",
   "theorems": [
    "C135_stack_complete",
    "C135_products_complete",
    "C135_every_surface",
    "C135_no_missing_burst",
    "C135_margin_refuted",
    "C135_rest_refuted",
    "C135_first_refuted"
   ],
   "note": "False of the code without the margin: each record without a position makes the loop process a surface without reading a burst, so looks are lost (C135_margin_refuted), enough of them in a row end the run with the rest of the file unread (C135_rest_refuted), and a first record without a position means nothing is processed at all (C135_first_refuted, for every file)."
  },
  {
   "property": "C136",
   "status": "proved",
   "theorems": [
    "C136_stack",
    "C136_every_surface",
    "C136_regular",
    "C136_lost"
   ],
   "note": "A generalisation of C112 and C135 (C136_regular: their geometries are the case M = N). The geometry must still be such that the first burst that sees a surface does not see the surface N further. C136_example is a pass with N = 2 and three surfaces in sight, where every stack but those at the end lacks its last look."
  },
  {
   "property": "C137",
   "status": "proved",
   "theorems": [
    "C137_surfaces",
    "C137_stack",
    "C137_output",
    "C137_seen",
    "C137_ends"
   ],
   "note": "Joins C122 (the loop with its geometry) and C136 (stacks for an oracle): the oracle is computed from the geometry here, once for the whole recording (laid, in_sight). Steady asks that surfaces come into and go out of sight in order, which C138 derives for circular orbits. Stacks are stated for runs that end or are cancelled: after an error the last surface written may be incomplete. The witness is C137_example in CircProps."
  },
  {
   "property": "C138",
   "status": "proved",
   "theorems": [
    "C138_surfaces",
    "C138_sight",
    "C138_output",
    "C138_ends"
   ],
   "note": "Exact real arithmetic: the resolution is exactly the angle to the ground K records on, so surfaces fall exactly below records. All records lie within the horizon of each other (p_far, p_horizon); the code has no horizon test and would see ground behind it. No record is at latitude and longitude 0, which the code takes for a record without a position, and longitudes are within half a turn (p_place)."
  },
  {
   "property": "C139",
   "status": "proved",
   "theorems": [
    "C139_delivered",
    "C139_chunk",
    "C139_region",
    "C139_short",
    "C139_larger",
    "C139_no_table",
    "C139_circle"
   ],
   "note": "A file is complete if every variable has a value of its kind for each record (masked values are outside). Time, latitude and longitude are rational numbers, the others real. That the last record of a region is lost is the defect of C33; without a region all records are used."
  },
  {
   "property": "C140",
   "status": "proved",
   "theorems": [
    "C140_round",
    "C140_mask",
    "C140_limits",
    "C140_entry",
    "C140_window",
    "C140_sample",
    "C140_looks",
    "C140_target",
    "C140_ring",
    "C140_counts",
    "C140_louder"
   ],
   "note": "Exact real arithmetic; the looks are those of C122 and C115, the masks and the multilooking are modelled here on real shifts. The point target is stated without calibration tables and without antenna weighting (plain); the sample formula holds with both masks and weights. Echoes are those of a deramping altimeter (PointSpec), the same phase reference for all samples of a pulse. The counts are those of the extended format, with the rounding of the NetCDF library left open."
  },
  {
   "property": "C141",
   "status": "proved",
   "theorems": [
    "C141_file",
    "C141_stated",
    "C141_copied",
    "C141_waveform",
    "C141_bright",
    "C141_circle"
   ],
   "note": "Exact real arithmetic. Attributes not modelled in the run (statistics of the stack, sigma-zero, start and stop angles, mask vectors) are arbitrary, of their usual shapes; a value that is not a number is an arbitrary one. A write that fails is left to the failures of the run (u_w1_fail). Packing is that of SchModel, with rounding and wrapping left open. The bright point is stated under the conditions of C140 and the circle under those of C138 with a ground radius above sqrt 2 metres (the guard of ecef2lla)."
  },
  {
   "property": "C142",
   "status": "proved",
   "theorems": [
    "C142_values",
    "C142_errors",
    "C142_kept",
    "C142_given",
    "C142_in_file",
    "C142_processor",
    "C142_refused"
   ],
   "note": "Numbers are exact; a float parameter is read as in C42; warnings are left out of the processor."
  },
  {
   "property": "C143",
   "status": "proved",
   "theorems": [
    "C143_names",
    "C143_written",
    "C143_lost"
   ],
   "note": "Attribute values are texts or numbers; the netCDF library stores them as given; the times are those of C116."
  },
  {
   "property": "C144",
   "status": "partial",
   "theorems": [
    "C144_restored",
    "C144_fetched",
    "C144_closing_refuted"
   ],
   "note": "False of programs that close a fetched stream (C144_closing_refuted): the flush in the finally part raises and the streams of before are never put back. Streams are buffers; flushing an open one does nothing to its text."
  },
  {
   "property": "C145",
   "status": "proved",
   "theorems": [
    "C145_drawn",
    "C145_aimed",
    "C145_agree",
    "C145_needed",
    "C145_ends",
    "C145_shipped",
    "C145_shipped_run"
   ],
   "note": "All parameters are read at once; in the code an error comes where a value is first used. A value used as a size that is negative or has a fraction is refused at once. Weights of the antenna, the choice of looks and other failures are left open as in C122 and C141."
  },
  {
   "property": "C146",
   "status": "partial",
   "theorems": [
    "C146_told",
    "C146_files",
    "C146_failed",
    "C146_silent_refuted"
   ],
   "note": "The claim in the notes of the text is false of the code (C146_silent_refuted). The file system is any function from paths to listings and sizes; paths are joined as in FigModel."
  },
  {
   "property": "C147",
   "status": "proved",
   "theorems": [
    "C147_test",
    "C147_all",
    "C147_versus",
    "C147_empty"
   ],
   "note": "Positions are exact. L1ADataset overrides this iteration, so no run uses it; the difference to it is the defect of C33."
  }
 ]
}