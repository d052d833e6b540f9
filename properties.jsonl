{"id": "C01", "title": "Processing an L1A file always terminates", "statement": "For every finite sequence of L1A records (valid, invalid/out of region, with or without time gaps), every geometry and every moment at which cancellation is requested, L1BProcessor.process stops after a number of loop iterations bounded by a fixed function of the number of input records and of the surfaces left over from earlier runs: it returns or raises, it never loops for ever.", "quantifier": "all finite record sequences, all gap patterns, all surface/beam geometries, all cancellation schedules, all initial queue contents", "why_tests_cant": "A test can only show that some inputs terminate; non-termination would appear on a particular interleaving of gaps, invalid records and cancellation.", "anchors": ["dedop/proc/sar/processor.py:L1BProcessor._process"]}
{"id": "C02", "title": "Output records are the located surfaces, once each and in order", "statement": "The sequence of surfaces written to the L1B product by one run is strictly increasing in surface number, so no surface is written twice and the along-track order is kept; when an L1BS product is requested it receives exactly the same sequence of surfaces.", "quantifier": "all input sequences, geometries, cancellation schedules, with and without L1BS output", "why_tests_cant": "Order and uniqueness must hold on every schedule of gap draining, end-of-file draining and steady-state processing.", "anchors": ["dedop/proc/sar/processor.py:L1BProcessor._process", "dedop/proc/sar/processor.py:L1BProcessor.new_surface", "dedop/proc/sar/processor.py:L1BProcessor.clear_old_records"]}
{"id": "C03", "title": "A burst contributes at most once to a surface", "statement": "During a run every burst is beam-formed at most once, and the stack gathered for a surface never contains the same burst twice; bursts occur in a stack in acquisition order.", "quantifier": "all input sequences, geometries and cancellation schedules", "why_tests_cant": "A double contribution would need a particular interleaving of queue clearing and surface processing.", "anchors": ["dedop/proc/sar/processor.py:L1BProcessor._process", "dedop/proc/sar/processor.py:L1BProcessor.beam_angles", "dedop/model/surface_data.py:SurfaceData.add_stack_burst"]}
{"id": "C04", "title": "Only surfaces with enough looks are written", "statement": "A processed surface is written to the products if and only if its gathered stack holds at least half (integer half) of the configured number of looks; otherwise it is dropped from the queue and nothing is written for it. Every surface that is taken from the queue falls in exactly one of the two cases.", "quantifier": "all input sequences, geometries, look counts", "why_tests_cant": "The decision is made on every surface at run time; tests only see a few stacks.", "anchors": ["dedop/proc/sar/processor.py:L1BProcessor._process"]}
{"id": "C05", "title": "No burst acquired after a data gap contributes to a surface located before it", "statement": "Whenever a time gap (at least 1.5 burst intervals) separates two bursts, no burst read at or after the gap ever enters the stack of a surface that was located before the gap.", "quantifier": "all input sequences with any number of gaps, all geometries", "why_tests_cant": "Needs every combination of queue content and gap position.", "anchors": ["dedop/proc/sar/processor.py:L1BProcessor._process", "dedop/proc/sar/processor.py:L1BProcessor.surface_locations"]}
{"id": "C06", "title": "No burst acquired before a data gap contributes to a surface located after it", "statement": "Whenever a time gap separates two bursts, no burst read before the gap ever enters the stack of a surface located after the gap.", "quantifier": "all input sequences with any number of gaps, all geometries", "why_tests_cant": "Left-over unprocessed bursts only occur on particular geometries.", "anchors": ["dedop/proc/sar/processor.py:L1BProcessor._process", "dedop/proc/sar/processor.py:L1BProcessor.clear_old_records"]}
{"id": "C07", "title": "Instrument calibration is applied exactly once to every burst that is used", "statement": "Every burst that enters the processing queue has had the CAL1/CAL2 corrections applied to its waveform exactly once.", "quantifier": "all input sequences, with and without gaps", "why_tests_cant": "A burst next to a gap takes a different path through the loop.", "anchors": ["dedop/proc/sar/processor.py:L1BProcessor._process", "dedop/proc/sar/cal/cal1_algorithm.py:CAL1Algorithm", "dedop/proc/sar/cal/cal2_algorithm.py:CAL2Algorithm"]}
{"id": "C08", "title": "Normal completion leaves no located surface unprocessed", "statement": "When a run ends normally (status None, no cancellation and no exception), every surface located during the run has either been written or been dropped for lack of looks; none is still pending, and both output files have been closed.", "quantifier": "all input sequences and geometries", "why_tests_cant": "Requires reasoning about all drain orders.", "anchors": ["dedop/proc/sar/processor.py:L1BProcessor._process"]}
{"id": "C09", "title": "Normal completion has read the whole input", "statement": "When a run ends normally, every record of the input (region) has been read.", "quantifier": "all input sequences including invalid or out-of-region records anywhere", "why_tests_cant": "Early end depends on where invalid records fall relative to the queue of surfaces.", "anchors": ["dedop/proc/sar/processor.py:L1BProcessor._process", "dedop/data/input/l1a/l1a_dataset.py:L1ADataset.__next__"]}
{"id": "C10", "title": "Every readable input produces closed products", "statement": "process() on an input with at least one valid record returns normally with its products closed (their global attributes written).", "quantifier": "all input sequences of valid records, with any number of gaps", "why_tests_cant": "Failure depends on how many surfaces precede the end of file or follow the last gap.", "anchors": ["dedop/proc/sar/processor.py:L1BProcessor._process"]}
{"id": "C11", "title": "Cancellation is prompt, safe and only truncates", "statement": "If cancellation is requested, the run performs at most the iteration in progress: at most one further surface is written after the request is observed; the products written so far are a prefix of what the uncancelled run writes; the products are closed unless the iteration in progress itself raises.", "quantifier": "all input sequences, geometries and all moments of cancellation", "why_tests_cant": "Every cancellation point is a different crash point.", "anchors": ["dedop/proc/sar/processor.py:L1BProcessor._process", "dedop/util/monitor.py:Monitor.is_cancelled"]}
{"id": "C12", "title": "Runs are independent of earlier runs of the same processor", "statement": "Processing a file with a processor that has already processed other files gives the same products as processing it with a freshly created processor.", "quantifier": "all pairs (or sequences) of input files, all outcomes of the earlier runs", "why_tests_cant": "The state that leaks depends on how the previous run ended.", "anchors": ["dedop/proc/sar/processor.py:L1BProcessor.__init__", "dedop/proc/sar/processor.py:L1BProcessor._process", "dedop/cli/main.py:RunProcessorCommand.execute"]}
{"id": "C13", "title": "Beam trend is consistent over every history of bursts", "statement": "Over every sequence of bursts of a run the trend stored with a burst is 0 exactly when the burst sees a full set of beams; otherwise it is +1 when the number of beams grew since the previous burst (or it is the first burst), -1 when it shrank, and it keeps the direction of the last change when the number of beams stayed the same.", "quantifier": "all histories of beam-list sizes, all numbers of pulses per burst", "why_tests_cant": "The trend depends on the whole history.", "anchors": ["dedop/model/l1a_processing_data.py:L1AProcessingData.calculate_beam_angles_trend", "dedop/proc/sar/processor.py:L1BProcessor.beam_angles"]}
{"id": "C14", "title": "The nadir beam used for approximate azimuth processing always exists", "statement": "For every burst that sees at least one surface, and every trend the processor can compute for it, the selected nadir beam is an element of the burst's beam-angle list, and it is the beam at position N/2 of the full set of N beams whenever the list contains it (otherwise the nearest end of the list); a burst that sees no surface makes the approximate method fail.", "quantifier": "all beam-list sizes from 0 to N, all N, all reachable trends", "why_tests_cant": "Index arithmetic with negative Python indices at every size.", "anchors": ["dedop/proc/sar/algorithms/azimuth_processing.py:AzimuthProcessingAlgorithm.get_nadir_beam_angle"]}
{"id": "C15", "title": "Beam angles pair with the surfaces they were computed for", "statement": "For every burst the beam-angle list and the seen-surface list have equal length not above the number of pulses per burst; they pair each seen surface with the angle computed for it; they are exactly the last N of the first contiguous run of visible surfaces, in along-track order.", "quantifier": "all queues of surfaces, all visibility patterns, all N", "why_tests_cant": "Every visibility pattern and every overflow of N beams must be covered.", "anchors": ["dedop/proc/sar/algorithms/beam_angles.py:BeamAnglesAlgorithm.__call__"]}
{"id": "C16", "title": "Each beam of a stack is the beam steered to that surface", "statement": "For every entry in the stack of a surface, the beam index stored with the burst selects, in that burst's own lists, the very surface the stack belongs to (and hence the angle computed for it).", "quantifier": "all runs", "why_tests_cant": "The pairing is done by positional bookkeeping over three lists.", "anchors": ["dedop/proc/sar/processor.py:L1BProcessor.beam_angles", "dedop/model/surface_data.py:SurfaceData.add_stack_beam_index", "dedop/proc/sar/algorithms/stack_gathering.py:StackGatheringAlgorithm.__call__"]}
{"id": "C17", "title": "Absolute look index range", "statement": "The absolute (burst-centred) look index stored for a beam always lies in [-floor(N/2), N-floor(N/2)-1]; for a list that is filling up it is the position counted from the end of the full beam set, otherwise from its start; distinct beams of a burst have distinct look indices.", "quantifier": "all N, all beam-list sizes, all positions, all trends", "why_tests_cant": "Index arithmetic over all sizes.", "anchors": ["dedop/model/surface_data.py:SurfaceData.add_stack_beam_index"]}
{"id": "C18", "title": "No uninitialised beam is ever gathered", "statement": "For both azimuth methods, every focused beam that can be selected for a surface has been written by the azimuth processing of its burst: for the exact method it is the central beam steered with that surface's angle, for the approximate method it is the beam at the same offset from the end (filling) or start (otherwise) of the burst's FFT output.", "quantifier": "all N, all list sizes, trends and methods", "why_tests_cant": "np.empty returns arbitrary memory: a test may pass by luck.", "anchors": ["dedop/proc/sar/algorithms/azimuth_processing.py:AzimuthProcessingAlgorithm.compute_approximate_method", "dedop/proc/sar/algorithms/azimuth_processing.py:AzimuthProcessingAlgorithm.compute_exact_method"]}
{"id": "C19", "title": "Azimuth window shape", "statement": "construct_azimuth_window returns N weights, zero outside the centred window of the configured width and following the requested shape inside: all ones for boxcar, 0.54-0.46cos for 'hamming' and 0.5-0.5cos for 'hanning'; all ones when disabled.", "quantifier": "all N, all widths up to N, all shapes", "why_tests_cant": "Off-by-one and degenerate widths.", "anchors": ["dedop/proc/sar/algorithms/azimuth_processing.py:AzimuthProcessingAlgorithm.construct_azimuth_window"]}
{"id": "C20", "title": "The gathered stack is a contiguous window of the right size", "statement": "The stack gathered for a surface has min(number of contributing bursts, configured looks) entries, consecutive in acquisition order and never out of range; when the bursts' absolute look angles decrease and then increase along the track, the selected bursts are the ones with the smallest absolute look angles.", "quantifier": "all stacks, look counts and look angles", "why_tests_cant": "Every order of look angles, including ties, must be covered.", "anchors": ["dedop/proc/sar/algorithms/stack_gathering.py:StackGatheringAlgorithm.__call__"]}
{"id": "C21", "title": "Closest burst is the first burst nearest to nadir", "statement": "The burst whose ancillary data is written to the products is one of the gathered bursts and minimises the distance of the beam angle from pi/2; ties are resolved in favour of the earliest burst.", "quantifier": "all non-empty stacks", "why_tests_cant": "Argmin over every list.", "anchors": ["dedop/proc/sar/algorithms/stack_gathering.py:StackGatheringAlgorithm.__call__", "dedop/model/surface_data.py:SurfaceData.closest_burst"]}
{"id": "C22", "title": "Multilooked waveform is the mean of the beams kept by the mask", "statement": "Each sample of the multilooked waveform is the arithmetic mean of that sample over exactly the beams whose mask vector is non-zero (over exactly the unmasked samples of those beams when zero avoidance is on); beams that are completely masked have no influence on it.", "quantifier": "all stacks, masks, look counts and both settings of the zero-avoidance flag", "why_tests_cant": "Averages over all masks.", "anchors": ["dedop/proc/sar/algorithms/multilooking.py:MultilookingAlgorithm.compute_multilooking"]}
{"id": "C23", "title": "Start and stop of the multilooked stack", "statement": "The reported number of beams start-to-stop is stop-start+1 where start and stop are the first and last beam kept by the mask; reported start/stop angles belong to those beams; the trimmed angle and mask vectors hold exactly the beams from start to stop followed by zeros; the number of averaged beams never exceeds it. With no beam kept everything is zero.", "quantifier": "all mask vectors and stack sizes", "why_tests_cant": "Boundary beams in every position.", "anchors": ["dedop/proc/sar/algorithms/multilooking.py:MultilookingAlgorithm.compute_multilooking"]}
{"id": "C24", "title": "Start and stop burst of the multilooked stack", "statement": "The reported start and stop burst sequence counts are those of the first and the last beam kept by the mask.", "quantifier": "all mask vectors and stacks", "why_tests_cant": "Only visible when edge beams are masked.", "anchors": ["dedop/proc/sar/algorithms/multilooking.py:MultilookingAlgorithm.compute_multilooking"]}
{"id": "C25", "title": "Antenna weight is the linear interpolation of the antenna table", "statement": "For every pointing angle within the antenna table the weight applied is the linear interpolation of the table at that angle (in particular it equals the tabulated weight at a tabulated angle and lies between the two neighbouring weights); outside the table it is the nearest end weight.", "quantifier": "all tables with constant spacing, all angles", "why_tests_cant": "A wrong interpolation can look plausible on a flat table.", "anchors": ["dedop/proc/sar/algorithms/multilooking.py:MultilookingAlgorithm._select_weight_from_angle"]}
{"id": "C26", "title": "Stack mask is binary and its vector locates the trailing masked samples", "statement": "The combined stack mask contains only zeros and ones; a sample is one exactly when the geometry mask and the look-angle mask both keep it; for beams of at least two samples the mask vector is zero exactly when the whole beam is masked, and otherwise equals the number of samples up to and including the last kept one, except that it is the last index when the last sample is kept.", "quantifier": "all corrections, look angles, angle limits, beam sizes", "why_tests_cant": "All shifts including half-way rounding and shifts beyond the window.", "anchors": ["dedop/proc/sar/algorithms/stack_masking.py:StackMaskingAlgorithm.combine_masks", "dedop/proc/sar/algorithms/stack_masking.py:StackMaskingAlgorithm.compute_geometry_mask", "dedop/proc/sar/algorithms/stack_masking.py:StackMaskingAlgorithm.compute_angle_mask"]}
{"id": "C27", "title": "The mask vector determines the trailing mask", "statement": "Two beams with the same value in the stack mask vector have the same position of their last unmasked sample, so that a reader of the product can reconstruct the trailing mask.", "quantifier": "all beams", "why_tests_cant": "A collision exists only for one pair of positions.", "anchors": ["dedop/proc/sar/algorithms/stack_masking.py:StackMaskingAlgorithm.combine_masks"]}
{"id": "C28", "title": "Geometry mask removes exactly the wrapped samples", "statement": "For a beam shifted by a rounded number of range samples s, the geometry mask removes exactly the first s*zp samples when s>0, the last |s|*zp samples when s<0, and everything when |s| is at least the number of samples.", "quantifier": "all shifts, sample counts and zero-padding factors", "why_tests_cant": "All shifts, including the banker's rounding of half samples.", "anchors": ["dedop/proc/sar/algorithms/stack_masking.py:StackMaskingAlgorithm.compute_geometry_mask"]}
{"id": "C29", "title": "FFT shift round trip and neutral calibration", "statement": "For every length (even or odd) ifftshift undoes fftshift, and a CAL2 correction with an all-ones transfer function leaves every waveform unchanged; a general CAL2 correction divides each frequency by the square root of its table entry.", "quantifier": "all lengths and waveforms", "why_tests_cant": "Odd lengths and all signals.", "anchors": ["dedop/proc/sar/cal/cal2_algorithm.py:CAL2Algorithm", "dedop/proc/sar/algorithms/range_compression.py:RangeCompressionAlgorithm"]}
{"id": "C30", "title": "Geometry corrections obey their switches and cancel the reference", "statement": "With a correction switched off its contribution is zero for every beam; with the slant-range correction on, the total shift of a beam does not depend on the surface's reference window delay; the distance satellite-surface is computed whatever the switches.", "quantifier": "all bursts, surfaces, constants", "why_tests_cant": "Algebra over all real values.", "anchors": ["dedop/proc/sar/algorithms/geometry_corrections.py:GeometryCorrectionsAlgorithm"]}
{"id": "C31", "title": "Cached reads return the file's data", "statement": "For every sequence of reads of any variables at any in-range record indices, in any order, each read returns the value stored in the file at that index.", "quantifier": "all access histories, chunk sizes, variable lengths", "why_tests_cant": "Cache correctness depends on the whole access history.", "anchors": ["dedop/data/input/netcdf_reader.py:NetCDFReader.get_value", "dedop/data/input/netcdf_reader.py:NetCDFReader._load_chunk"]}
{"id": "C32", "title": "Out-of-range reads fail", "statement": "Reading a record index beyond the length of a variable raises an error whatever was read before.", "quantifier": "all access histories", "why_tests_cant": "Depends on the cache state left by earlier reads.", "anchors": ["dedop/data/input/netcdf_reader.py:NetCDFReader.get_value"]}
{"id": "C33", "title": "Region of interest selects exactly the records inside it", "statement": "With a latitude/longitude region configured, the records delivered for processing are exactly the valid records of the file whose position lies inside the region (limits included), in file order.", "quantifier": "all files, all combinations of configured limits", "why_tests_cant": "Boundary records at both ends, and regions entered several times.", "anchors": ["dedop/data/input/l1a/l1a_dataset.py:L1ADataset.__init__", "dedop/data/input/l1a/l1a_dataset.py:L1ADataset.__next__"]}
{"id": "C34", "title": "Both ways of reading a data set agree", "statement": "Iterating over a data set and calling next() until exhaustion deliver the same sequence, whose length is the reported length of the data set; without a region it is the whole file, with invalid records delivered as None.", "quantifier": "all files, regions and validity patterns", "why_tests_cant": "Two separate implementations of the same iteration.", "anchors": ["dedop/data/input/l1a/l1a_dataset.py:L1ADataset.__iter__", "dedop/data/input/l1a/l1a_dataset.py:L1ADataset.__next__", "dedop/data/input/l1a/l1a_dataset.py:L1ADataset.__len__"]}
{"id": "C35", "title": "Product records stay aligned", "statement": "After any sequence of record writes, row i of every variable of a product holds the value supplied with the i-th successful write (or fill if none was supplied), and the number of records equals the number of successful writes; a failed write leaves rows of earlier records untouched.", "quantifier": "all sequences of records with missing values and failing writes", "why_tests_cant": "Alignment must hold for every history including failures.", "anchors": ["dedop/data/output/netcdf_writer.py:NetCDFWriter.write_record"]}
{"id": "C36", "title": "UTC day and second of a record denote its time", "statement": "The (day, second) pair written for a surface between two bursts denotes the time of the surface: relative to the previous burst the elapsed time is preserved across midnight and leap seconds, and the seconds lie in [0, day length).", "quantifier": "all times, day lengths", "why_tests_cant": "Only visible at midnight.", "anchors": ["dedop/data/output/l1b_writer.py:L1BWriter.write_record", "dedop/data/output/l1bs_writer.py:L1BSWriter.write_record"]}
{"id": "C37", "title": "L1BS I/Q samples fit their 8-bit encoding", "statement": "The scaled I and Q samples written to an L1BS product lie in [-127,127] and multiplying by the stored scale factor gives back the stack samples.", "quantifier": "all non-zero stacks", "why_tests_cant": "All signal ranges.", "anchors": ["dedop/data/output/l1bs_writer.py:L1BSWriter.write_record"]}
{"id": "C38", "title": "Products of a run have distinct, predictable names", "statement": "For every input name and run name the L1B and L1BS file names differ, end in .nc, start with L1B/L1BS and contain the run name; with the same run name, inputs with different base names (and the same L1A prefix status) give different products.", "quantifier": "all file and run names", "why_tests_cant": "String concatenation collisions.", "anchors": ["dedop/proc/sar/processor.py:L1BProcessor._process"]}
{"id": "C39", "title": "Upgrading a configuration applies the changelog and nothing else", "statement": "After upgrading a configuration file: every parameter whose last change since the file's version is an addition or modification has the default's value; every parameter whose last change is a removal is gone; every other parameter is untouched; the metadata is that of the default. If the file is already at the default's version or newer it is left unchanged.", "quantifier": "all configurations, all changelogs", "why_tests_cant": "The effect depends on every possible sequence of changes.", "anchors": ["dedop/ui/workspace_manager.py:WorkspaceManager._do_upgrade_config", "dedop/ui/workspace_manager.py:WorkspaceManager.upgrade_config"]}
{"id": "C40", "title": "Upgrading is idempotent and yields a loadable version", "statement": "Upgrading twice equals upgrading once; the resulting version equals the maximum of the old version and the default version; a configuration whose version was not newer than the default is accepted by the reader's version check afterwards whenever the default is.", "quantifier": "all configurations, all changelogs", "why_tests_cant": "All version histories.", "anchors": ["dedop/ui/workspace_manager.py:WorkspaceManager._do_upgrade_config", "dedop/conf/auxiliary_file_reader.py:AuxiliaryFileReader._read_file"]}
{"id": "C41", "title": "Auxiliary files of another version are rejected", "statement": "An auxiliary file is loaded if and only if its version equals the version the software expects (files without metadata count as version -1); after loading, a parameter has the value given by keyword override if any, else the value of the file; the metadata entry is never visible as a parameter.", "quantifier": "all files, versions, overrides", "why_tests_cant": "All documents.", "anchors": ["dedop/conf/auxiliary_file_reader.py:AuxiliaryFileReader._read_file", "dedop/conf/auxiliary_file_reader.py:AuxiliaryFileReader.__init__"]}
{"id": "C42", "title": "Parameter access is typed, defaulted and stable", "statement": "Reading a parameter returns the cast value of the file; an absent optional parameter gives its default, an absent mandatory one an error; a typed parameter never returns a value of another type; repeated reads on the same object return the same value and reads on different objects never mix.", "quantifier": "all access sequences over any number of configuration objects", "why_tests_cant": "The cache lives on the class and depends on the history of accesses of all instances.", "anchors": ["dedop/conf/auxiliary_parameter.py:AuxiliaryParameter.__get__", "dedop/conf/auxiliary_file_reader.py:AuxiliaryFileReader.__getitem__"]}
{"id": "C43", "title": "Algorithm parameters come from the configuration, else from their defaults", "statement": "Every parameter declared for an algorithm class or one of its base classes is available on the instance, with the configuration's value when it can be read and the declared default otherwise; a subclass's declaration overrides the one inherited.", "quantifier": "all single-inheritance class hierarchies, all declarations and configurations", "why_tests_cant": "All hierarchies.", "anchors": ["dedop/util/parameter.py:Parameter.get_parameters", "dedop/proc/sar/base_algorithm.py:BaseAlgorithm.collect_parameter_values"]}
{"id": "C44", "title": "Single and bulk parameter lookup agree", "statement": "Looking up one parameter by name and looking it up in the collected dictionary give the same declaration.", "quantifier": "all class hierarchies, including multiple inheritance", "why_tests_cant": "Only differs for particular diamond/multiple inheritance shapes.", "anchors": ["dedop/util/parameter.py:Parameter.get_parameter", "dedop/util/parameter.py:Parameter.get_parameters"]}
{"id": "C45", "title": "Local tool configuration overrides the user configuration", "statement": "A tool configuration value is the local file's value if the local file defines it, else the user file's value if it defines it, else the caller's default; a file that fails to load contributes nothing; later changes of the files do not change the answers.", "quantifier": "all file contents and failure combinations, all query sequences", "why_tests_cant": "All combinations of failures.", "anchors": ["dedop/util/config.py:get_config", "dedop/util/config.py:get_config_value"]}
{"id": "C46", "title": "Workspace operations do not touch other workspaces", "statement": "Creating, deleting, copying, renaming a workspace, and every configuration/input/output operation inside it, leave the content of every workspace not named by the operation unchanged.", "quantifier": "all file trees, all names, all sequences of operations", "why_tests_cant": "All operation sequences.", "anchors": ["dedop/ui/workspace_manager.py:WorkspaceManager"]}
{"id": "C47", "title": "Creating a workspace or configuration never destroys data", "statement": "Creating a workspace or configuration that already has content fails and changes nothing; on success nothing that existed before is changed.", "quantifier": "all file trees and names", "why_tests_cant": "All prior states.", "anchors": ["dedop/ui/workspace_manager.py:WorkspaceManager.create_workspace", "dedop/ui/workspace_manager.py:WorkspaceManager.create_config"]}
{"id": "C48", "title": "Copy gives an identical independent copy", "statement": "After copying a workspace (configuration) under a new name the copy has exactly the content of the original, the original is unchanged, and a later change of one does not change the other; copying onto an existing name fails and changes nothing.", "quantifier": "all file trees and names", "why_tests_cant": "All contents.", "anchors": ["dedop/ui/workspace_manager.py:WorkspaceManager.copy_workspace", "dedop/ui/workspace_manager.py:WorkspaceManager.copy_config"]}
{"id": "C49", "title": "Rename moves the content to the new name", "statement": "After renaming a workspace (configuration) the new name has exactly the old content and the old name no longer exists; renaming onto an existing name fails.", "quantifier": "all file trees and names", "why_tests_cant": "All prior states of the target name.", "anchors": ["dedop/ui/workspace_manager.py:WorkspaceManager.rename_workspace", "dedop/ui/workspace_manager.py:WorkspaceManager.rename_config"]}
{"id": "C50", "title": "The current workspace always exists", "statement": "After every sequence of workspace commands the current workspace, if set, names an existing workspace.", "quantifier": "all sequences of commands", "why_tests_cant": "All histories of create/select/delete/rename.", "anchors": ["dedop/ui/workspace_manager.py:WorkspaceManager.get_current_workspace", "dedop/cli/main.py:ManageWorkspacesCommand", "dedop/webapi/websocket.py:WebSocketService.delete_workspace"]}
{"id": "C51", "title": "Deleting a workspace deletes only that workspace", "statement": "delete_workspace removes the named workspace and nothing else, for every name it accepts.", "quantifier": "all names including the empty name, all file trees", "why_tests_cant": "Special names.", "anchors": ["dedop/ui/workspace_manager.py:WorkspaceManager.delete_workspace"]}
{"id": "C52", "title": "Listings are sorted and exact", "statement": "Workspace and configuration listings contain exactly the existing sub-directories, each once, in sorted order.", "quantifier": "all file trees", "why_tests_cant": "All directory contents.", "anchors": ["dedop/ui/workspace_manager.py:WorkspaceManager.get_workspace_names", "dedop/ui/workspace_manager.py:WorkspaceManager.get_config_names"]}
{"id": "C53", "title": "File listings by pattern", "statement": "Listing inputs or outputs returns the sorted .nc files; with a pattern exactly those that match; with several patterns exactly those that match at least one, each once.", "quantifier": "all directories and pattern lists", "why_tests_cant": "Overlapping patterns.", "anchors": ["dedop/ui/workspace_manager.py:WorkspaceManager.get_nc_filename_list"]}
{"id": "C54", "title": "Unique names are found and are new", "statement": "For every set of existing names, choosing a unique name terminates with a name not in the set; the requested name is kept if it is free.", "quantifier": "all sets of names and requested names", "why_tests_cant": "Termination for all sets.", "anchors": ["dedop/cli/main.py:ManageWorkspacesCommand.ensure_unique_name", "dedop/cli/main.py:ManageConfigsCommand.ensure_unique_name"]}
{"id": "C55", "title": "Notebooks are never overwritten", "statement": "Creating an inspection or comparison notebook always terminates and writes a file that did not exist before; existing notebooks are unchanged.", "quantifier": "all directory contents", "why_tests_cant": "Termination and freshness for all sets.", "anchors": ["dedop/ui/workspace_manager.py:WorkspaceManager._launch_notebook_from_template"]}
{"id": "C56", "title": "Titles respect their limit", "statement": "A limited title is never longer than the limit, equals the name if it fits, and otherwise keeps the requested end of the name.", "quantifier": "all names, limits above 3, both modes", "why_tests_cant": "All lengths.", "anchors": ["dedop/ui/workspace_manager.py:WorkspaceManager._limit_title"]}
{"id": "C57", "title": "Run command processes every input with every selected configuration", "statement": "dedop run invokes the processor exactly once for each selected configuration and each input, configurations in order and inputs in order within them, with the configuration's own files and output directory; the first failure stops the run and is reported; -a and -c together are rejected before anything is processed.", "quantifier": "all workspaces, inputs, options and failure points", "why_tests_cant": "All combinations and failure points.", "anchors": ["dedop/cli/main.py:RunProcessorCommand.execute"]}
{"id": "C58", "title": "Comparing resolves each file independently", "statement": "In dedop output compare each of the two product arguments is resolved on its own (as a path if it has a directory part, else in the outputs of its workspace and configuration); an omitted second argument means the first one.", "quantifier": "all argument combinations", "why_tests_cant": "Mixed path/filename combinations.", "anchors": ["dedop/cli/main.py:ManageOutputsCommand.execute_compare"]}
{"id": "C59", "title": "Progress monitors are always finished", "statement": "A task run under monitor.starting signals start once before and done once after, whether the task returns or raises, and the result or exception is passed on.", "quantifier": "all tasks", "why_tests_cant": "All failure points.", "anchors": ["dedop/util/monitor.py:Monitor.starting"]}
{"id": "C60", "title": "Child monitors conserve work", "statement": "When a child monitor for w units of a parent is told of steps adding up to its total work, the parent is told of steps adding up to w, at every nesting depth; cancellation requested or queried at any depth reaches the root.", "quantifier": "all step sequences, totals and nesting depths", "why_tests_cant": "All nestings.", "anchors": ["dedop/util/monitor.py:ChildMonitor"]}
{"id": "C61", "title": "Reported progress never exceeds the announced total", "statement": "The work reported by a processing run never exceeds the total work announced at its start.", "quantifier": "all input sequences", "why_tests_cant": "Only exceeded when gaps occur.", "anchors": ["dedop/proc/sar/processor.py:L1BProcessor._process", "dedop/proc/sar/processor.py:L1BProcessor.process"]}
{"id": "C62", "title": "Console progress lines", "statement": "The console monitor prints a line exactly when the rounded percentage or the message changes; the progress bar has constant width for percentages between 0 and 100; in one-line mode no remains of an earlier longer line stay visible.", "quantifier": "all sequences of progress reports", "why_tests_cant": "All histories.", "anchors": ["dedop/util/monitor.py:ConsoleMonitor"]}
{"id": "C63", "title": "Angle normalisation", "statement": "normalize terminates for every angle, its result lies in [-pi,pi] and differs from the angle by a whole number of turns; angles already in range are unchanged.", "quantifier": "all real angles", "why_tests_cant": "Continuum of inputs.", "anchors": ["dedop/proc/geo/normalize.py:normalize"]}
{"id": "C64", "title": "Geodetic to Cartesian conversion", "statement": "lla2ecef places zero altitude on the reference ellipsoid, moves by exactly the altitude difference along the geodetic normal, is periodic in longitude and symmetric about the equator.", "quantifier": "all latitudes, longitudes, altitudes and ellipsoids", "why_tests_cant": "Continuum of inputs.", "anchors": ["dedop/proc/geo/lla2ecef.py:lla2ecef"]}
{"id": "C65", "title": "Cartesian to geodetic conversion near the poles", "statement": "For every point within one metre of the rotation axis ecef2lla returns the height above the nearer pole.", "quantifier": "all points near either pole", "why_tests_cant": "Sign of z.", "anchors": ["dedop/proc/geo/ecef2lla.py:ecef2lla"]}
{"id": "C66", "title": "Angle between vectors", "statement": "angle_between is symmetric, independent of the (positive) lengths of its arguments, and in [0,pi] for all non-zero vectors; parallel vectors give 0.", "quantifier": "all non-zero vectors", "why_tests_cant": "Continuum of inputs.", "anchors": ["dedop/proc/functions/vectors.py:angle_between"]}
{"id": "C67", "title": "New surfaces lie between the bursts that bracket them", "statement": "Whenever a new surface is interpolated between two consecutive bursts and the angular distance of the earlier one had not yet reached the beam resolution, its time, position and attitude lie between (component-wise) those of the two bursts with one common weight in (0,1], so surface times increase along the track.", "quantifier": "all burst pairs and geometries", "why_tests_cant": "Continuum of inputs.", "anchors": ["dedop/proc/sar/algorithms/surface_locations.py:SurfaceLocationAlgorithm.find_new_location"]}
{"id": "C68", "title": "Surface focusing moves one surface to the closest approach", "statement": "Focusing moves a surface to the point of the line through it and its predecessor that is closest to the target; over every history at most one surface of a processor is moved, and never the first one.", "quantifier": "all geometries and histories", "why_tests_cant": "Continuum of inputs and all histories.", "anchors": ["dedop/proc/sar/algorithms/surface_locations.py:SurfaceLocationAlgorithm.focus_surface", "dedop/proc/sar/algorithms/surface_locations.py:SurfaceLocationAlgorithm.__call__"]}
{"id": "C69", "title": "Range compression keeps the energy of every beam", "statement": "For every zero-padding factor and every beam, the range-compressed power samples of a beam add up to the energy of the beam before compression, each power sample is the squared modulus of the complex sample, and sample m holds the frequency displayed at position m with zero frequency in the middle.", "quantifier": "all beams, sample counts and zero-padding factors of at least one", "why_tests_cant": "Holds for all complex waveforms and sizes.", "anchors": ["dedop/proc/sar/algorithms/range_compression.py:RangeCompressionAlgorithm.__call__"]}
{"id": "C70", "title": "CAL1 correction is a per-pulse complex gain", "statement": "With CAL1 on, every sample of pulse p is turned by the pulse's calibration phase and its power multiplied by cal1_power[p] / 10^((agc - sig0_cal)/10); unit calibration changes nothing; with CAL1 off nothing changes.", "quantifier": "all waveforms, gains, phases and powers", "why_tests_cant": "Continuum of inputs.", "anchors": ["dedop/proc/sar/cal/cal1_algorithm.py:CAL1Algorithm.__call__"]}
{"id": "C71", "title": "Azimuth processing is a coherent sum of the pulses", "statement": "The beam the exact method stores for an angle is the coherent sum of the burst's pulses after removing the Doppler phase of that angle; the beam the approximate method stores is the same sum for the nadir angle with the linear phase of the beam's Doppler bin; the approximate transform keeps the energy of the burst.", "quantifier": "all bursts, angles, pulse counts, wavelengths", "why_tests_cant": "Continuum of inputs; the central bin position depends on the parity of the pulse count.", "anchors": ["dedop/proc/sar/algorithms/azimuth_processing.py:AzimuthProcessingAlgorithm.compute_exact_method", "dedop/proc/sar/algorithms/azimuth_processing.py:AzimuthProcessingAlgorithm.compute_phase_shift", "dedop/proc/sar/algorithms/azimuth_processing.py:AzimuthProcessingAlgorithm.compute_fft_azimuth_dimension"]}
{"id": "C72", "title": "The two azimuth methods agree at the nadir beam", "statement": "For every burst, the beam that the approximate method stores for the surface it steered to equals the beam the exact method stores for that surface.", "quantifier": "all bursts, all list sizes from 1 to N", "why_tests_cant": "Short beam lists only occur at the ends of the data.", "anchors": ["dedop/proc/sar/algorithms/azimuth_processing.py:AzimuthProcessingAlgorithm.compute_approximate_method"]}
{"id": "C73", "title": "A whole-sample geometry correction moves the echo by that many bins", "statement": "Geometry corrections change only the phase of each sample; a total shift of m samples moves the range-compressed echo cyclically by exactly m times the zero-padding factor bins.", "quantifier": "all beams, shifts and zero-padding factors", "why_tests_cant": "Combination of two algorithms over all waveforms.", "anchors": ["dedop/proc/sar/algorithms/geometry_corrections.py:GeometryCorrectionsAlgorithm.apply_corrections", "dedop/proc/sar/algorithms/range_compression.py:RangeCompressionAlgorithm.__call__"]}
{"id": "C74", "title": "Sigma-zero scaling follows the radar equation and is averaged over the stack", "statement": "Every beam's factor is the logarithmic radar equation of its range, illuminated area and the closest burst's gain; the reported factor is the mean of the beams' factors for every non-empty stack of at most n_looks beams, and d dB more gain gives exactly d dB more.", "quantifier": "all stacks and constants", "why_tests_cant": "Continuum of inputs.", "anchors": ["dedop/proc/sar/algorithms/sigma_zero_scaling.py:Sigma0ScalingFactorAlgorithm.__call__"]}
{"id": "C75", "title": "Reported first and last times belong to the delivered records", "statement": "For every data set of positive length, the first and last time written to the product metadata are read at the indices of the first and last element of the sequence delivered for processing.", "quantifier": "all files and regions", "why_tests_cant": "Region ends and single-record regions.", "anchors": ["dedop/data/input/l1a/l1a_dataset.py:L1ADataset.first_time", "dedop/data/input/l1a/l1a_dataset.py:L1ADataset.last_time"]}
{"id": "C76", "title": "L1B extended waveforms survive their integer encoding", "statement": "For every non-negative waveform with a positive sample, the waveform written to the extended L1B product is divided by its own maximum, every stored unsigned 32-bit number is below the fill value, and stored number times quantum times stored scale factor differs from the sample by at most half a quantum of the maximum.", "quantifier": "all waveforms, any rounding to nearest", "why_tests_cant": "All amplitudes.", "anchors": ["dedop/data/output/l1b_writer.py:L1BWriterExtended.write_record"]}
{"id": "C77", "title": "Product metadata are complete", "statement": "After writing global attributes every given name is present with the given text, missing values are recorded as 'Not available', and attributes not named are unchanged.", "quantifier": "all attribute sets", "why_tests_cant": "All subsets of missing values.", "anchors": ["dedop/data/output/netcdf_writer.py:NetCDFWriter.write_globals"]}
{"id": "C78", "title": "The shipped configuration files fit the software", "statement": "Each shipped default file loads without warnings in its class; upgrading any configuration that is not newer with the shipped default succeeds and the result is accepted by the reader; what the shipped changelogs add is declared and what they remove is not; every mandatory parameter is defined in the shipped files and every algorithm parameter exists in the configuration class.", "quantifier": "all older configurations; the shipped data", "why_tests_cant": "All possible user configurations of all earlier versions.", "anchors": ["dedop/ui/data/config/CNF.json", "dedop/ui/data/config/CHD.json", "dedop/ui/data/config/CST.json", "dedop/conf/configuration.py", "dedop/conf/characterization.py", "dedop/conf/constants.py"]}
{"id": "C79", "title": "Configuration operations do not touch other configurations", "statement": "Every operation inside a workspace (create, delete, copy, rename, edit, upgrade a configuration, set the current one, add or remove inputs, remove outputs, make a notebook) leaves every configuration it does not name unchanged; deleting a configuration removes exactly that one.", "quantifier": "all file trees, all names, all sequences of operations", "why_tests_cant": "All operation sequences.", "anchors": ["dedop/ui/workspace_manager.py:WorkspaceManager.delete_config", "dedop/ui/workspace_manager.py:WorkspaceManager.upgrade_all_config", "dedop/ui/workspace_manager.py:WorkspaceManager.remove_outputs"]}
{"id": "C80", "title": "The current configuration always exists", "statement": "After every sequence of workspace and configuration commands the current configuration of every workspace, if set, names an existing configuration of that workspace.", "quantifier": "all sequences of commands", "why_tests_cant": "All histories of create/select/delete/rename of workspaces and configurations.", "anchors": ["dedop/ui/workspace_manager.py:WorkspaceManager.get_current_config", "dedop/cli/main.py:ManageConfigsCommand", "dedop/webapi/websocket.py:WebSocketService.delete_config"]}
{"id": "C81", "title": "Cartesian to geodetic conversion inverts geodetic to Cartesian", "statement": "For every point on the reference ellipsoid and every point of the equatorial plane outside the near-axis zone, ecef2lla returns the latitude, longitude in [0,2pi) and altitude that lla2ecef was given; the longitude is returned exactly at every altitude.", "quantifier": "all latitudes, longitudes and consistent ellipsoids", "why_tests_cant": "Continuum of inputs.", "anchors": ["dedop/proc/geo/ecef2lla.py:ecef2lla", "dedop/proc/geo/lla2ecef.py:lla2ecef"]}
{"id": "C82", "title": "Surfaces lie beneath the satellite at the window delay", "statement": "The first surface lies straight below its burst's satellite position, along the normal of the ellipsoid, at the distance that corresponds to the window delay; every interpolated or focused surface gets the window delay of the difference of the altitudes of its satellite and surface positions.", "quantifier": "all bursts, geometries and ellipsoids", "why_tests_cant": "Continuum of inputs.", "anchors": ["dedop/proc/sar/algorithms/surface_locations.py:SurfaceLocationAlgorithm.store_first_location", "dedop/proc/sar/algorithms/surface_locations.py:SurfaceLocationAlgorithm.find_new_location", "dedop/model/l1a_processing_data.py:L1AProcessingData.compute_location_sar_surf"]}
{"id": "C83", "title": "Commands move the selection exactly as documented", "statement": "Adding a configuration selects it. Renaming a workspace or configuration moves its content to a name that was free (the requested one if possible) and the selection follows exactly when the renamed one was selected. Removing a configuration selects 'default', else the first listed one, else none, exactly when it was selected. Copies have the content of the original and never change the selection.", "quantifier": "all workspace trees whose entries are directories with ordinary names, all ordinary names", "why_tests_cant": "Unbounded trees and names.", "anchors": ["dedop/cli/main.py:ManageConfigsCommand", "dedop/cli/main.py:ManageWorkspacesCommand", "dedop/ui/workspace_manager.py:WorkspaceManager.rename_config"]}
{"id": "C84", "title": "A surface is visible to a burst exactly when its Doppler shift is unambiguous", "statement": "A burst sees a surface exactly when the Doppler shift of its echo is at most half the pulse repetition frequency (of the angle corrected by the Doppler angle); the computation is defined exactly when that frequency does not exceed four times the velocity in wavelengths; and when beam angles decrease along the list of surfaces, as on a straight track, the scan finds every visible surface.", "quantifier": "all positions, velocities, carrier and repetition frequencies, lists of surfaces", "why_tests_cant": "Continuum of inputs, lists of any length.", "anchors": ["dedop/proc/sar/algorithms/beam_angles.py:BeamAnglesAlgorithm.compute_beam_angle", "dedop/proc/sar/algorithms/beam_angles.py:BeamAnglesAlgorithm.__call__"]}
{"id": "C85", "title": "Look angles are measured from the vertical", "statement": "The Doppler angle is the signed angle between velocity and horizontal plane, so that the look angle of the point straight below the satellite is zero whether the satellite climbs or descends.", "quantifier": "all positions and velocities, all ellipsoids", "why_tests_cant": "Continuum of inputs.", "anchors": ["dedop/model/l1a_processing_data.py:L1AProcessingData.compute_doppler_angle", "dedop/proc/sar/algorithms/stack_gathering.py:StackGatheringAlgorithm.__call__"]}
{"id": "C86", "title": "Every product can be opened and holds every record", "statement": "Each of the three products declares distinct variables over declared dimensions; a record of a surface of the usual shapes is always accepted and every value it supplies is stored; the variables that never receive a value are exactly a fixed list; a writer can be opened once only; every fill value is a number of its variable's type.", "quantifier": "all sizes, all surfaces, all histories of records, the three products", "why_tests_cant": "Unbounded histories and sizes.", "anchors": ["dedop/data/output/netcdf_writer.py:NetCDFWriter.create_all_variables", "dedop/data/output/l1b_writer.py:L1BWriter.write_record", "dedop/data/output/l1bs_writer.py:L1BSWriter.write_record"]}
{"id": "C87", "title": "Physical values survive the packing of the products", "statement": "A value in its physical range (latitude, altitude, range, attitude, beam and look angles, powers in dB, ...) written to a packed integer variable is read back unmasked and within half a packing step; unused entries of per-beam arrays do not read back as measurements.", "quantifier": "all real values in range, all roundings to nearest, all conversions of out-of-range numbers", "why_tests_cant": "Continuum of values.", "anchors": ["dedop/data/output/l1b_writer.py:L1BWriterExtended.__init__", "dedop/data/output/l1bs_writer.py:L1BSWriter.__init__"]}
{"id": "C88", "title": "Values are stated in the declared unit and the products agree", "statement": "Every angle, position, velocity, time and range is stored in the unit its variable declares, and the products of a run store the same value under the same name.", "quantifier": "all surfaces and bursts, the three products", "why_tests_cant": "Continuum of values.", "anchors": ["dedop/data/output/l1b_writer.py:L1BWriterExtended.write_record", "dedop/data/output/l1b_writer.py:L1BWriter.write_record", "dedop/data/output/l1bs_writer.py:L1BSWriter.write_record"]}
{"id": "C89", "title": "GPS time counts from the GPS epoch", "statement": "The GPS time of a record is its time plus the seconds of the days from 6 January 1980 to 1 January 2000 in the Gregorian calendar, less the 19 s between TAI and GPS.", "quantifier": "all times", "why_tests_cant": "Continuum of times.", "anchors": ["dedop/model/surface_data.py:SurfaceData.gps_time_surf"]}
{"id": "C90", "title": "What a product says about a burst is what the L1A file says", "statement": "Every product variable copied from the burst closest to a surface holds the value of the L1A variable of the same name, and the attitude stated for a surface is that of the satellite attitude variables.", "quantifier": "all L1A records, all copied variables of the three products", "why_tests_cant": "Continuum of records.", "anchors": ["dedop/data/input/l1a/l1a_dataset.py:L1ADataset.__getitem__", "dedop/data/output/l1b_writer.py:L1BWriterExtended.write_record"]}
{"id": "C91", "title": "The window delay is the two-way travel time to the centre of gravity", "statement": "The window delay is twice the range divided by the speed of light, where the range is the measured one plus the centre-of-gravity offset projected with the pitch angle of the record.", "quantifier": "all ranges, offsets and pitch angles", "why_tests_cant": "Continuum of records.", "anchors": ["dedop/data/input/l1a/l1a_dataset.py:L1ADataset.__getitem__"]}
{"id": "C92", "title": "The attenuation of the gain control is undone", "statement": "The power of every sample of a burst is the power of the sample in the file raised by the automatic gain control value in decibels.", "quantifier": "all samples and gain values", "why_tests_cant": "Continuum of samples.", "anchors": ["dedop/data/input/l1a/l1a_dataset.py:L1ADataset.__getitem__"]}
{"id": "C93", "title": "The stack is characterised by its central beams", "statement": "The beams used to characterise a stack are the first beam looking closest to the perpendicular of the track and up to 124 beams on each side; they are real beams, never padding; a surface with beams is always characterised.", "quantifier": "all stacks of any size, all outcomes of the curve fit", "why_tests_cant": "Stacks of any size with arbitrary real angles.", "anchors": ["dedop/proc/sar/algorithms/multilooking.py:MultilookingAlgorithm.compute_stack_characterization_params"]}
{"id": "C94", "title": "The maximum power of the stack is a power of its beams", "statement": "The power fitted for a beam is its total power relative to the largest of the stack, between 0 and 1, and the maximum stack power stated in the products is proportional to the echoes while angles and moments are not affected by amplification.", "quantifier": "all stacks, all amplifications, all outcomes of the curve fit", "why_tests_cant": "Continuum of powers.", "anchors": ["dedop/proc/sar/algorithms/multilooking.py:MultilookingAlgorithm.compute_stack_characterization_params", "dedop/data/output/l1b_writer.py:L1BWriterExtended.__init__"]}
{"id": "C95", "title": "Centre and standard deviation of the stack are those of the fitted bell", "statement": "The centre angle, peak and standard deviation stated for a stack are those of the Gaussian bell fitted to its powers; a failed fit is recognisable.", "quantifier": "all stacks, all outcomes of the curve fit", "why_tests_cant": "Continuum of parameters.", "anchors": ["dedop/proc/sar/algorithms/multilooking.py:gauss", "dedop/proc/sar/algorithms/multilooking.py:gauss_fit"]}
{"id": "C96", "title": "Skewness and kurtosis are standardised moments", "statement": "Skewness and kurtosis are the third and (less 3) fourth standardised moments of the fitted powers, satisfy kurtosis >= skewness^2 - 2, do not depend on the peak of the fitted curve, and are not numbers for a single beam.", "quantifier": "all stacks, all outcomes of the curve fit", "why_tests_cant": "Lists of any length over the reals.", "anchors": ["dedop/proc/sar/algorithms/multilooking.py:MultilookingAlgorithm.compute_stack_characterization_params"]}
{"id": "C97", "title": "Every product with records can be inspected", "statement": "Opening a level-1B or level-1B-S file written by the processor with at least one record succeeds, recognises its kind and reads its positions, times and waveforms; a product without records and files of other kinds are rejected with a stated error.", "quantifier": "all files with the variables of one of the three products, all numbers of records and samples", "why_tests_cant": "Files of any size; needs the variable tables of all three writers.", "anchors": ["dedop/ui/inspect.py:L1bProductInspector.__init__"]}
{"id": "C98", "title": "The waveform shown on inspection is the processed waveform", "statement": "The waveforms an inspector shows are the multilooked waveforms the processor computed for the surfaces.", "quantifier": "all products, all records", "why_tests_cant": "Composition of three writers with the reader over the reals.", "anchors": ["dedop/ui/inspect.py:L1bProductInspector.__init__", "dedop/data/output/l1b_writer.py:L1BWriterExtended.write_record", "dedop/data/output/l1bs_writer.py:L1BSWriter.write_record"]}
{"id": "C99", "title": "Display limits are those asked for", "statement": "Plots use the limits given by the user, and without limits the extent of the data, so that everything is visible.", "quantifier": "all inspectors and limits", "why_tests_cant": "Continuum of limits.", "anchors": ["dedop/ui/inspect.py:L1bProductInspectorPlots.waveform_im", "dedop/ui/inspect.py:L1bProductInspectorPlots.waveform_hist", "dedop/ui/inspect.py:L1bProductInspectorPlots.im", "dedop/ui/inspect.py:L1bProductInspectorPlots.im_line"]}
{"id": "C100", "title": "The image of a variable shows that variable", "statement": "Images can be drawn exactly of the two-dimensional variables, the names offered are exactly those, and the image drawn is of the variable named.", "quantifier": "all files and names", "why_tests_cant": "Files with any variables.", "anchors": ["dedop/ui/inspect.py:L1bProductInspectorPlots._plot_im", "dedop/ui/inspect.py:L1bProductInspectorPlots.im"]}
{"id": "C101", "title": "Comparison is the sample-wise difference", "statement": "Two products are comparable exactly when their waveforms have the same dimensions; the difference is sample by sample, antisymmetric, zero exactly for equal waveforms, and the axes of the plots include what is drawn.", "quantifier": "all pairs of inspectors", "why_tests_cant": "Rectangles of any size over the reals.", "anchors": ["dedop/ui/compare.py:L1bProductComparator.__init__", "dedop/ui/compare.py:L1bProductComparatorPlots.waveforms_hist", "dedop/ui/compare.py:L1bProductComparatorPlots.waveforms_scatter"]}
{"id": "C102", "title": "Inputs are added to and removed from a workspace exactly", "statement": "Adding files copies each of them under its own name into the inputs of that workspace and changes no other file; removing names removes exactly these inputs and ignores names that are not there.", "quantifier": "all trees, workspaces and lists of files", "why_tests_cant": "All directory trees, name collisions and path-like names.", "anchors": ["dedop/ui/workspace_manager.py:WorkspaceManager.add_inputs", "dedop/ui/workspace_manager.py:WorkspaceManager.remove_inputs"]}
{"id": "C103", "title": "Removing outputs empties the outputs of one configuration", "statement": "Removing outputs removes every file in the outputs directory of that configuration and nothing else; without such a directory it fails and changes nothing.", "quantifier": "all trees", "why_tests_cant": "All directory trees.", "anchors": ["dedop/ui/workspace_manager.py:WorkspaceManager.remove_outputs"]}
{"id": "C104", "title": "Figures are written in the format and to the path asked for", "statement": "The format is the one given, else that named by the extension of the path, else a directory; the file written is the path given, with the extension added if it has none; all other combinations are refused.", "quantifier": "all paths and formats", "why_tests_cant": "All texts, including dots, slashes and case variants.", "anchors": ["dedop/ui/figurewriter.py:FigureWriter.__init__"]}
{"id": "C105", "title": "Every figure saved is in the output", "statement": "The pages of the file are the figures saved, in order; in a directory each figure is in the file of its name; closing writes nothing and can be repeated.", "quantifier": "all sequences of saving and closing", "why_tests_cant": "All interleavings of saves and closes.", "anchors": ["dedop/ui/figurewriter.py:FigureWriter.savefig", "dedop/ui/figurewriter.py:FigureWriter.close", "dedop/ui/compare.py:L1bProductComparator.close"]}
{"id": "C106", "title": "A generated notebook opens the product it was made for", "statement": "The generated notebook is valid JSON, and the code in it calls the inspection or comparison with text literals that denote exactly the paths given.", "quantifier": "all paths", "why_tests_cant": "All texts as paths, including backslashes, control characters, quotes and template marks.", "anchors": ["dedop/ui/workspace_manager.py:WorkspaceManager.inspect_l1b_product", "dedop/ui/workspace_manager.py:WorkspaceManager.compare_l1b_products"]}
{"id": "C107", "title": "Notebooks are opened by name", "statement": "The command that opens a notebook passes directory and notebook path unchanged to the notebook server, and the title and the command unchanged to the terminal.", "quantifier": "all paths, titles and terminals", "why_tests_cant": "All texts under shell quoting.", "anchors": ["dedop/ui/workspace_manager.py:WorkspaceManager.launch_notebook"]}
{"id": "C108", "title": "The CryoSat-2 configuration can be used and keeps its values", "statement": "A configuration created for CryoSat-2 can be loaded; upgrading it, or any configuration derived from it, keeps the values that distinguish the mission.", "quantifier": "the shipped data; all derived configurations", "why_tests_cant": "All user configurations of all earlier versions.", "anchors": ["dedop/ui/data/cryosat_config/CHD.json", "dedop/ui/data/cryosat_config/CNF.json", "dedop/ui/data/cryosat_config/CST.json", "dedop/ui/workspace_manager.py:WorkspaceManager.create_config", "dedop/ui/workspace_manager.py:WorkspaceManager.upgrade_config"]}
{"id": "C109", "title": "Configurations saved through the web interface are read back", "statement": "Saving replaces exactly the sections sent, all or nothing; reading returns each document with its names in case-insensitive order.", "quantifier": "all documents and trees", "why_tests_cant": "All documents and states of the configuration directory.", "anchors": ["dedop/webapi/websocket.py:WebSocketService.save_configs", "dedop/webapi/websocket.py:WebSocketService.get_configs", "dedop/ui/workspace_manager.py:WorkspaceManager.get_config_json", "dedop/ui/workspace_manager.py:WorkspaceManager.write_config_file"]}
{"id": "C110", "title": "The web interface reports the extent of a file", "statement": "The extent reported for a file is the smallest and largest latitude and longitude of its records; the list of coordinates is that of the file.", "quantifier": "all files", "why_tests_cant": "All tracks.", "anchors": ["dedop/webapi/websocket.py:WebSocketService.get_max_min_coordinates", "dedop/webapi/websocket.py:WebSocketService.get_lat_lon"]}
{"id": "C111", "title": "Cartesian to geodetic conversion is accurate at every altitude", "statement": "Converting geodetic to Cartesian coordinates and back gives the latitude up to an error of the third order in the squared eccentricity and the second in the altitude, the altitude up to the corresponding length; with the shipped constants within 5e-9 rad and 0.1 m up to 1500 km and 1e-12 rad and 5e-6 m near the ground; above the ellipsoid the northern latitude always comes out too large.", "quantifier": "all latitudes, longitudes and altitudes, all ellipsoids of small flattening; the shipped ellipsoid", "why_tests_cant": "Surface positions and the altitude of the satellite are taken from this conversion.", "anchors": ["dedop/proc/geo/ecef2lla.py:ecef2lla", "dedop/proc/geo/lla2ecef.py:lla2ecef"]}
{"id": "C112", "title": "A surface's stack holds every burst that sees it", "statement": "On a pass without gaps and invalid records, where each surface is seen from one stretch of the track and a burst sees no more surfaces than it has pulses, the stack gathered for each surface consists of exactly the bursts of the file that see it, in order, and the error for a missing previous burst does not occur: surfaces are located far enough in advance and no burst is dropped too early.", "quantifier": "all such passes, all cancellation schedules, all failures of numerical and writing steps, all numbers of pulses and of surfaces located in advance with at least two more surfaces than pulses", "why_tests_cant": "A burst lost at one of the queue operations only lowers the number of looks of some surfaces; no error is raised.", "anchors": ["dedop/proc/sar/processor.py:L1BProcessor._process", "dedop/proc/sar/processor.py:L1BProcessor.clear_old_records", "dedop/proc/sar/processor.py:L1BProcessor.beam_angles", "dedop/proc/sar/processor.py:L1BProcessor.new_surface"]}
{"id": "C113", "title": "Every quantity is set before it is used", "statement": "From the construction of a burst to its beams, and from the creation of a surface to its record in each of the three products, no step reads an attribute that has not been set, assigns to a read-only property or copies a result its algorithm does not have; of all orders of the six steps of a surface exactly four have this property.", "quantifier": "all values, all algorithms as functions of what they read, with and without focusing, all numbers of bursts", "why_tests_cant": "The steps communicate only by attributes of surfaces and bursts, whose absence shows as a KeyError in the middle of a run.", "anchors": ["dedop/proc/sar/processor.py:L1BProcessor._process", "dedop/model/surface_data.py:SurfaceData.__getitem__", "dedop/model/surface_data.py:SurfaceData.__setitem__", "dedop/model/l1a_processing_data.py:L1AProcessingData.__getitem__"]}
{"id": "C114", "title": "What is stated of a surface does not depend on earlier surfaces", "statement": "The results of each surface depend only on its own attributes and the bursts of its stack, not on what the algorithm objects hold from the surfaces before; the same holds of its location.", "quantifier": "all surfaces, stacks, algorithms and histories of the algorithm objects", "why_tests_cant": "The algorithm objects are created once and keep their results from one surface to the next.", "anchors": ["dedop/proc/sar/processor.py:L1BProcessor.stack_gathering", "dedop/proc/sar/processor.py:L1BProcessor.multilooking", "dedop/proc/sar/algorithms/stack_gathering.py:StackGatheringAlgorithm.__call__", "dedop/proc/sar/algorithms/surface_locations.py:SurfaceLocationAlgorithm.get_surface", "dedop/proc/sar/algorithms/surface_locations.py:SurfaceLocationAlgorithm.store_first_location"]}
{"id": "C115", "title": "A point target is imaged at its place by every look", "statement": "For bursts that hold the echo of one point target, azimuth processing with the exact method, stack gathering, geometry corrections and range compression together give, in every look, a row whose only maximum is in the middle when the target is at the surface, and d bins later when it is d bins farther, with power amplitude squared times pulses times samples over zero padding; the row depends only on amplitude and lag, so the looks are aligned and their mean has the same maximum. Targets off the beam are weaker in every bin, unless their Doppler frequency differs by a multiple of the pulse repetition frequency.", "quantifier": "all positions, speeds, window delays, beam angles, sampling intervals, amplitudes and phases; all numbers of pulses, samples, looks and zero padding factors", "why_tests_cant": "Each step has its own sign convention and scaling; only their composition shows that they cancel, so that looks can be averaged.", "anchors": ["dedop/proc/sar/processor.py:L1BProcessor._process", "dedop/proc/sar/algorithms/azimuth_processing.py:AzimuthProcessingAlgorithm.compute_exact_method", "dedop/proc/sar/algorithms/geometry_corrections.py:GeometryCorrectionsAlgorithm.__call__", "dedop/proc/sar/algorithms/range_compression.py:RangeCompressionAlgorithm.__call__"]}
{"id": "C116", "title": "Times are stated correctly", "statement": "The time text of a product states the microsecond nearest to the burst's time (the even one of two), in the Gregorian calendar, and nothing else; texts sort as the times do, so the first time of a product does not come after its last; the text is given for exactly the times nearest to an instant of the years 1 to 9999, other times, infinities and NaN are errors.", "quantifier": "all rational times, infinities and NaN; all creation times of the clock", "why_tests_cant": "Users and archives select products by these attributes.", "anchors": ["dedop/util/time.py:iso_format", "dedop/util/time.py:get_now", "dedop/proc/sar/processor.py:L1BProcessor.process"]}
{"id": "C117", "title": "After a deletion a workspace that exists is selected", "statement": "Deleting a workspace through the web interface removes it, leaves the others as they were, and selects the workspace called default if there is one, else the first by name, else the empty name; the same for configurations. Deleting one that was not selected keeps the selection.", "quantifier": "all trees, workspaces and configurations with plain names", "why_tests_cant": "The selection decides where later commands read and write.", "anchors": ["dedop/webapi/websocket.py:WebSocketService.delete_workspace", "dedop/webapi/websocket.py:WebSocketService.delete_config", "dedop/ui/workspace_manager.py:WorkspaceManager.get_workspace_names", "dedop/ui/workspace_manager.py:WorkspaceManager.set_current_workspace_name"]}
{"id": "C118", "title": "Workspace objects describe the workspaces", "statement": "The object returned for a workspace has its name and its directory, and says whether it is selected; the list has one for each workspace; an object read back from its JSON form is the same; objects can be saved.", "quantifier": "all trees, names and directories of the manager", "why_tests_cant": "The web client sees workspaces only through these objects.", "anchors": ["dedop/ui/workspace.py:Workspace.__init__", "dedop/ui/workspace.py:Workspace.open", "dedop/ui/workspace.py:Workspace.save", "dedop/ui/workspace.py:Workspace.from_json_dict", "dedop/ui/workspace.py:Workspace.to_json_dict", "dedop/ui/workspace_manager.py:WorkspaceManager.get_current_workspace", "dedop/ui/workspace_manager.py:WorkspaceManager.get_workspaces"]}
{"id": "C119", "title": "Powers of the looks follow the powers of the echoes", "statement": "Multiplying the samples of each burst by a complex number multiplies the powers of that burst's look by its squared modulus, and nothing else changes; a phase of each burst does not matter; a receiver gain higher by d decibel divides them by 10^(d/10); complex looks add up when echoes do; and the multilooked waveform is multiplied by a common factor of the beams' powers, with the same samples missing, the same looks selected and the same errors.", "quantifier": "all calibrations, flags, constants, surfaces, bursts, factors, zero padding factors and numbers of looks; all weightings, masks and avoidance of zeroes", "why_tests_cant": "Backscatter is measured by the level of the waveform: every step must be linear in the samples, and the selection of looks must not depend on the level.", "anchors": ["dedop/proc/sar/processor.py:L1BProcessor._process", "dedop/proc/sar/cal/cal1_algorithm.py:CAL1Algorithm.__call__", "dedop/proc/sar/cal/cal2_algorithm.py:CAL2Algorithm.__call__", "dedop/proc/sar/algorithms/azimuth_processing.py:AzimuthProcessingAlgorithm.compute_exact_method", "dedop/proc/sar/algorithms/geometry_corrections.py:GeometryCorrectionsAlgorithm.__call__", "dedop/proc/sar/algorithms/range_compression.py:RangeCompressionAlgorithm.__call__", "dedop/proc/sar/algorithms/multilooking.py:MultilookingAlgorithm.__call__"]}
{"id": "C120", "title": "The tracking of the window and the order of the bursts do not show in the image", "statement": "If the receiving window of a burst opens earlier or later by any time, its echoes being recorded accordingly, the powers of the looks are the same; and if the bursts of a stack come in another order, the rows come in that order and their mean is the same.", "quantifier": "all shifts, different for each burst, also by fractions of a sample; all flags, surfaces and bursts with a beam to the surface; all permutations of stacks that fit the number of looks", "why_tests_cant": "The tracker moves the window from burst to burst; a sign error in the correction would smear the averaged waveform.", "anchors": ["dedop/proc/sar/algorithms/geometry_corrections.py:GeometryCorrectionsAlgorithm.compute_win_delay_misalignments_correction", "dedop/proc/sar/algorithms/geometry_corrections.py:GeometryCorrectionsAlgorithm.__call__", "dedop/proc/sar/algorithms/stack_gathering.py:StackGatheringAlgorithm.__call__"]}
{"id": "C121", "title": "Nothing depends on where along the equator, or in which hemisphere, the pass is", "statement": "If positions and velocities of all bursts and the focusing target are turned about the polar axis by any angle, or also mirrored at the equator, then the surfaces found are those of the original pass, turned and mirrored: longitudes are shifted, latitudes have the sign changed or kept, and times, altitudes, attitude, window delays, angular resolutions, distances, numbering and errors are the same; Doppler angles, beam angles, the surfaces seen, and the powers of the looks are the same.", "quantifier": "all angles, all passes and states of the queues, all settings, with and without focusing", "why_tests_cant": "The ellipsoid is symmetric, so any dependence on longitude or hemisphere is an error; tests use a few passes at fixed places.", "anchors": ["dedop/proc/sar/algorithms/surface_locations.py:SurfaceLocationAlgorithm.__call__", "dedop/proc/sar/algorithms/surface_locations.py:SurfaceLocationAlgorithm.find_new_location", "dedop/proc/geo/ecef2lla.py:ecef2lla", "dedop/proc/geo/lla2ecef.py:lla2ecef", "dedop/proc/sar/algorithms/beam_angles.py:BeamAnglesAlgorithm.__call__", "dedop/model/l1a_processing_data.py:L1AProcessingData.compute_doppler_angle", "dedop/proc/sar/algorithms/geometry_corrections.py:GeometryCorrectionsAlgorithm.__call__"]}
{"id": "C122", "title": "From the records to the looks: the run with its geometry", "statement": "For every input, configuration and geometry the run ends, by itself, by cancellation or by an error, and does what the loop with some oracle does, so everything proved about the loop for all oracles holds for the geometry computed by the code. The geometry kept always describes the surfaces and bursts queued. Without focusing, every surface written was seen, at the angle used for its beam, by every burst of its stack; its looks are those of the bursts of its stack picked by their look angles, each steered to the surface by its own angle, whatever else the burst saw. Surfaces are written in ascending order, each with enough looks from different bursts. A burst at which a gap was noticed is calibrated twice, every other one once, and the looks are those of the samples so calibrated: with equal gains of all pulses the first burst after a gap is weighted with the gain once more than the others.", "quantifier": "all lists of records, readings that give nothing or fail, cancellations, constants, settings and characterisations", "why_tests_cant": "The separate steps can be right while the composition pairs a surface with the wrong burst, angle or echo.", "anchors": ["dedop/proc/sar/processor.py:L1BProcessor.process", "dedop/proc/sar/processor.py:L1BProcessor.surface_locations", "dedop/proc/sar/processor.py:L1BProcessor.beam_angles", "dedop/proc/sar/algorithms/beam_angles.py:BeamAnglesAlgorithm.__call__", "dedop/proc/sar/algorithms/surface_locations.py:SurfaceLocationAlgorithm.__call__", "dedop/proc/sar/algorithms/stack_gathering.py:StackGatheringAlgorithm.__call__"]}
{"id": "C123", "title": "The same pass elsewhere gives the same product", "statement": "If the positions and velocities of all records are turned about the polar axis by any angle, or also mirrored at the equator, and the echoes are the same, then the whole run ends in the same way and writes the same surfaces, turned and mirrored, with the same stacks, beam angles and looks, hence the same waveforms and, in the L1B file, the same records but for the places and velocities.", "quantifier": "all angles, inputs, cancellations and settings, with and without focusing", "why_tests_cant": "Extends C121 from the steps to the run: also the choice of bursts, the queues and the order of the output must not depend on the place.", "anchors": ["dedop/proc/sar/processor.py:L1BProcessor.process", "dedop/proc/sar/algorithms/surface_locations.py:SurfaceLocationAlgorithm.__call__", "dedop/proc/sar/algorithms/beam_angles.py:BeamAnglesAlgorithm.__call__"]}
{"id": "C124", "title": "The echoes decide nothing but the looks", "statement": "With other echoes in the same records the run ends in the same way and writes the same surfaces with the same stacks and beam angles; the looks of a surface depend on the echoes of the bursts looking only; echoes multiplied by complex numbers multiply the powers of the looks by the squared moduli, and phases do not matter.", "quantifier": "all inputs, settings and cancellations; all echoes, and factors different for each record", "why_tests_cant": "A dependence of the geometry or of a neighbouring look on the echoes would be an error that no single step shows.", "anchors": ["dedop/proc/sar/processor.py:L1BProcessor.process", "dedop/proc/sar/algorithms/stack_gathering.py:StackGatheringAlgorithm.__call__", "dedop/proc/sar/algorithms/azimuth_processing.py:AzimuthProcessingAlgorithm.__call__"]}
{"id": "C125", "title": "Geodetic coordinates by iteration", "statement": "On the polar axis and over the equator the coordinates found by iteration are exactly those of the point, and the longitude is exact everywhere; the centre of the Earth, and only it, is rejected. Around the Earth ten iterations always suffice, and the errors of latitude and altitude after n iterations fall like the n-th power of the squared eccentricity (2.6 times it); with the constants shipped they are below 1e-9 rad and 1 m after four iterations, 1e-11 rad and 2 cm after five. That the test for convergence guarantees a small error is false: at one latitude it holds after the first iteration with an altitude wrong by kilometres.", "quantifier": "all points from nine tenths of the Earth's radius outwards, all ellipsoids flattened by at most one hundredth; the constants shipped for the numbers", "why_tests_cant": "Iterations can stop early, go on for ever or converge to another point; a test with a few points shows none of this.", "anchors": ["dedop/proc/geo/ecef2lla.py:ecef2lla_iterative"]}
{"id": "C126", "title": "What the commands show", "statement": "The commands that show lists, versions and the status change no file. A list shows exactly the workspaces, configurations, inputs or outputs there are, sorted, each once, numbered from 1 below a line with their number, and different lists are shown differently; without a name the current workspace is meant. The versions shown are those of the three files, and an unusable file is an error. The status shows the names, the total number of characters of the files below the workspaces directory in whole MiB, the current workspace and its configuration, which exist; a copy adds the size of the workspace, a removal takes it away, renaming changes nothing. The status never fails in a session of commands with ordinary names; after a web client has renamed the current workspace it does.", "quantifier": "all trees without double entries; all names that are single path components; all sessions", "why_tests_cant": "Users decide what to remove or run from these lists.", "anchors": ["dedop/cli/main.py:ManageWorkspacesCommand.execute_list", "dedop/cli/main.py:ManageConfigsCommand.execute_list", "dedop/cli/main.py:ManageConfigsCommand.execute_version", "dedop/cli/main.py:ManageInputsCommand.execute_list", "dedop/cli/main.py:ManageOutputsCommand.execute_list", "dedop/cli/main.py:ShowStatusCommand.execute", "dedop/cli/main.py:_dir_size"]}
{"id": "C127", "title": "What a run leaves behind", "statement": "A run that succeeds leaves exactly the files that were there and the products, each made from the configuration and the input of its name as they were before the first product; a run that fails changes only products, and those before the failure are complete. In a workspace no product can replace a file that is read, repeating the work changes no file, the outputs listed afterwards are the old ones and the products, and the run succeeds whenever the files are usable and nothing is in the way. That every input keeps its own product is true when the names differ after removing 'L1A' and the extension, and false otherwise. The processor for tests uses the same names (unless a part is empty), reports no more work than announced and leaves two empty files or nothing.", "quantifier": "all trees, command lines, configurations, inputs and results of processing", "why_tests_cant": "Results are lost if one product replaces another or an input; users rely on the listing of outputs after a run.", "anchors": ["dedop/cli/main.py:RunProcessorCommand.execute", "dedop/proc/sar/processor.py:L1BProcessor.process", "dedop/data/output/netcdf_writer.py:NetCDFWriter.__init__", "dedop/model/processor.py:DummyProcessor.process"]}
{"id": "C128", "title": "The times of the records decide nothing but where the gaps are", "statement": "If the same records carry other times, but the same records follow the one before without a gap, then the run ends in the same way and writes the same surfaces at the same places with the same stacks, beam angles and looks; with a clock that runs at another rate or starts elsewhere the times of the surfaces are those of that clock; a shift of all times never changes anything else. The gaps do decide.", "quantifier": "all inputs, times, settings and cancellations; with and without focusing", "why_tests_cant": "Times enter the interpolation of surfaces and the test for gaps; another epoch or unit must not change a product.", "anchors": ["dedop/proc/sar/processor.py:L1BProcessor.process", "dedop/proc/sar/algorithms/surface_locations.py:SurfaceLocationAlgorithm.__call__", "dedop/proc/sar/algorithms/surface_locations.py:SurfaceLocationAlgorithm.find_new_location"]}
{"id": "C129", "title": "Line plots", "statement": "A curve has one point for each value, at the value of the other variable at the same place or at the place itself, and is drawn exactly when the variables are there and of one length. In a notebook the variables over a dimension shared with another variable are offered, each pair over one dimension can be selected, and every selection gives a curve. The curves beside an image are the row and the column meant and cross in the same value; the lines in the image are at this row and column, and figures of different plots have different names.", "quantifier": "all files, names and indices, also negative; all sequences of selections", "why_tests_cant": "Plots with shifted or mismatched values mislead whoever checks a product; selections must not end in errors.", "anchors": ["dedop/ui/inspect.py:L1bProductInspectorPlots.line", "dedop/ui/inspect.py:L1bProductInspectorPlots._plot_line", "dedop/ui/inspect.py:L1bProductInspectorPlots._plot_im_line", "dedop/ui/inspect.py:L1bProductInspectorPlots._plot_waveform_line"]}
{"id": "C130", "title": "The product named is the one inspected or compared", "statement": "The inspect command makes one new notebook in the workspace that refers to the product named: a path as seen from the current directory, or an output of the configuration given or current; no file changes. A product that is not there is an error and nothing changes. The compare command does the same for two products, the second one by default of the same workspace and configuration.", "quantifier": "all trees, names and paths", "why_tests_cant": "A wrong lookup shows another product under the name asked for.", "anchors": ["dedop/cli/main.py:ManageOutputsCommand.execute_inspect", "dedop/cli/main.py:ManageOutputsCommand.execute_compare", "dedop/ui/workspace_manager.py:WorkspaceManager.inspect_l1b_product", "dedop/ui/workspace_manager.py:WorkspaceManager.compare_l1b_products"]}
{"id": "C131", "title": "Command lines are understood as the help says", "statement": "A line of words and options, options in any of their spellings before and after the words, is accepted exactly when the words can be shared among the arguments of the command, and every attribute is then what the line says: the last mention of an option counts, and earlier arguments are served first. All attributes a command reads are there; names and aliases are unambiguous; options may stand anywhere; only Enter or yes confirms.", "quantifier": "all lines, all parsers of the commands, all names not beginning with a minus sign", "why_tests_cant": "The number of lines is unbounded; a word taken for another one removes or overwrites the wrong thing.", "anchors": ["dedop/cli/main.py:ManageWorkspacesCommand.configure_parser_and_subparsers", "dedop/cli/main.py:ManageConfigsCommand.configure_parser_and_subparsers", "dedop/cli/main.py:ManageInputsCommand.configure_parser_and_subparsers", "dedop/cli/main.py:ManageOutputsCommand.configure_parser_and_subparsers", "dedop/cli/main.py:RunProcessorCommand.configure_parser"]}
{"id": "C132", "title": "A longer recording changes only the last records", "statement": "If a recording is continued, the decisions, positions, stacks, beam angles and looks of all surfaces but the last min_surfs - 1 located in it stay exactly as they are without the continuation, whatever is recorded afterwards, with gaps, invalid records, failures and cancellation. The number cannot be improved.", "quantifier": "all recordings and all continuations, all geometries and configurations", "why_tests_cant": "Two recordings of any length are compared; a processor that looks ahead or numbers by the total would differ in any record.", "anchors": ["dedop/proc/sar/processor.py:L1BProcessor._process", "dedop/proc/sar/processor.py:L1BProcessor.clear_old_records", "dedop/proc/sar/algorithms/surface_locations.py:SurfaceLocationAlgorithm.__call__"]}
{"id": "C133", "title": "A recording with a gap gives the products of its two parts", "statement": "If the records before a gap are processed to the end with nothing left over, the products of the whole recording are the products of the records before the gap followed by the products of the records from the gap on, processed on their own: the same decisions, surfaces, bursts and beams, numbered on. The run ends in the same way, also with further gaps, invalid records and failures after the first gap.", "quantifier": "all valid recordings before the gap, all continuations, all geometries and configurations with the exact method", "why_tests_cant": "Three runs of any length are compared; whatever the processor remembers over a gap can change any record after it.", "anchors": ["dedop/proc/sar/processor.py:L1BProcessor._process", "dedop/proc/sar/processor.py:L1BProcessor.clear_old_records", "dedop/proc/sar/processor.py:L1BProcessor.beam_angles"]}
{"id": "C134", "title": "What a run holds in memory", "statement": "At no time more than min_surfs surfaces are held. The bursts held are the last valid records dealt with: all of them as long as no surface has been written, and none from before the first look of a surface written. If surfaces are located every d records, all have enough looks, and first looks are at most v records before the record a surface was located at, at most v + d (min_surfs + 1) bursts are held, however long the recording is.", "quantifier": "all recordings, geometries and configurations, all moments of a run, with gaps, invalid records, failures and cancellation", "why_tests_cant": "A bound for every length and every moment; a test sees one length, and memory that grows is noticed only with recordings longer than the tests.", "anchors": ["dedop/proc/sar/processor.py:L1BProcessor._process", "dedop/proc/sar/processor.py:L1BProcessor.clear_old_records"]}
{"id": "C135", "title": "Stacks on a pass with records without a position", "statement": "On a regular pass without gaps that has K records without a position, the first record having one, and with at least N + 2 + K surfaces located in advance (N beams): the stack of every surface is exactly the list of valid bursts that see it, in order; every located surface is dealt with, no valid burst is left unread and the error for a missing burst cannot occur.", "quantifier": "all regular geometries, recordings of any length with any pattern of invalid records within the margin, all moments of cancellation and failures", "why_tests_cant": "Where the invalid records lie relative to the surfaces matters; a test tries a few places, the theorem covers all patterns and gives the exact margin used up by each record.", "anchors": ["dedop/proc/sar/processor.py:L1BProcessor._process", "dedop/data/input/l1a/l1a_dataset.py:L1ADataset.__next__"]}
{"id": "C136", "title": "Stacks when a burst sees more surfaces than it has pulses", "statement": "On a pass whose bursts may see up to M surfaces each (M may exceed the number N of pulses), without gaps and with at least M + 2 + K surfaces located in advance (K records without a position): the stack of a surface is exactly the valid bursts that see it, in order, without those that also see the located surface N further; so a burst is missing from at most M - N stacks, none when M = N, and a surface is written exactly when enough of these bursts remain.", "quantifier": "all geometries in which the surfaces are seen from advancing overlapping stretches of the track, recordings of any length, all moments of cancellation and failures", "why_tests_cant": "Beams aimed past the N-th surface are dropped silently; whether a given geometry reaches that case in a test is chance, the theorem says for every geometry which looks are lost.", "anchors": ["dedop/proc/sar/processor.py:L1BProcessor._process", "dedop/proc/sar/algorithms/beam_angles.py:BeamAnglesAlgorithm.__call__", "dedop/proc/sar/algorithms/stacking.py:StackingAlgorithm.__call__"]}
{"id": "C137", "title": "What a run with its geometry puts out, without the loop", "statement": "On a steady recording (the first record has a position, no gap in time, every surface is in sight for one stretch of records, the stretches advance with the surfaces, and enough surfaces are located in advance): every product lies on the surface laid by going once through the bursts, one after the other; its stack is exactly the list of records whose beams reach that surface, without those that also reach the located surface N further; a run that ends by itself writes exactly the surfaces with at least half the configured looks, in order; and it does end by itself when no step fails and at least min_surfs surfaces are laid.", "quantifier": "all steady recordings with any orbit, attitude, echoes, ellipsoid and configuration (no focusing), all moments of cancellation", "why_tests_cant": "The loop interleaves reading, locating, beam pointing and forgetting of bursts over three queues; a test compares a few files with a stored output, the theorem replaces the whole loop by a description that mentions no queue.", "anchors": ["dedop/proc/sar/processor.py:L1BProcessor._process", "dedop/proc/sar/algorithms/surface_locations.py:SurfaceLocationAlgorithm.__call__", "dedop/proc/sar/algorithms/beam_angles.py:BeamAnglesAlgorithm.__call__"]}
{"id": "C138", "title": "A satellite on a circle above the equator", "statement": "For a satellite on a circle above the equator at constant speed, when the angular resolution is the angle to the ground K records further and the beams reach the ground m records to either side: a surface is laid below every K-th record and nowhere else; it is seen exactly by the records at most m away; the run ends by itself and writes, for every surface with enough of them, a stack of exactly these records (2 m < N K).", "quantifier": "all radii, speeds, steps, K, m, numbers of records within the horizon, and configurations", "why_tests_cant": "A closed form of the output for a family of orbits, from the trigonometry of the positions to the records in each stack; tests use one recorded orbit and cannot say which records ought to be there.", "anchors": ["dedop/proc/sar/algorithms/surface_locations.py:SurfaceLocationAlgorithm.find_new_location", "dedop/proc/sar/algorithms/beam_angles.py:BeamAnglesAlgorithm.compute_beam_angle", "dedop/proc/sar/processor.py:L1BProcessor._process"]}
{"id": "C139", "title": "From the L1A file to the run", "statement": "For a complete L1A file the run is fed one item for each record from the first inside the region up to the last, which is left out: the record with every field taken from the variable that names it, if its position is inside the region and not (0, 0), nothing otherwise; the size of the reader's chunks makes no difference; a region that takes in one stretch of a pass gives the run of a file cut to that stretch; a larger region from the same record keeps the products already settled; a calibration table the file does not hold stops the run at the first record; a variable that ends before a record of its chunk stops the run there instead of giving a wrong value; and the file of a circular pass above the equator gives the products of C138.", "quantifier": "all files, regions, chunk sizes, calibration table indices and configurations", "why_tests_cant": "Joins the reader, its cache and the region filter (C31-C33, C75), the variables of a record (C91) and the run (C132, C138); tests look at one of these at a time with one file.", "anchors": ["dedop/data/input/l1a/l1a_dataset.py:L1ADataset.__next__", "dedop/data/input/l1a/l1a_dataset.py:L1ADataset.__getitem__", "dedop/data/input/netcdf_reader.py:NetCDFReader.get_value", "dedop/proc/sar/processor.py:L1BProcessor._process"]}
{"id": "C140", "title": "From the looks of a surface to its waveform and counts", "statement": "The waveform of a surface written by a run is, sample by sample, the mean of the weighted looks over those looks that count there (or over all looks used), a sample counting when it was in the window of its burst before the look was shifted, to half a sample, and the look angle is allowed. For a recording with the echo of a bright point and a surface located at that point, the waveform has its largest sample in the middle, with the full power of all pulses and samples, whatever the pass, the window delays and the shifts; on a circular pass this holds for the surface below record s*K. The scale factor in the file is then that sample, and its count is the largest there is. Echoes g times as strong give waveforms |g|^2 times as strong and the same counts. No burst of a run has more beams than pulses.", "quantifier": "all recordings, configurations, masks, weights, look angle limits, orbits, amplitudes and phases", "why_tests_cant": "It is the property the altimeter chain exists for, across all stages from location of the surface to the counts in the file; tests compare single algorithms with stored arrays.", "anchors": ["dedop/proc/sar/algorithms/stack_masking.py:StackMaskingAlgorithm.__call__", "dedop/proc/sar/algorithms/multilooking.py:MultilookingAlgorithm.__call__", "dedop/proc/sar/processor.py:L1BProcessor._process", "dedop/data/output/l1b_writer.py:L1BWriter.write_record"]}
{"id": "C141", "title": "From the L1A file to the L1B file", "statement": "Whenever the L1A file opens, the L1B file is made, no record is refused, it has one record for each surface the run sends out and in that order, and each variable of the format holds the attribute it is declared to be made of. Time, place, velocity and range are those of the surface; the flags and counters taken over from the L1A file are those of the one record whose beam, among the looks kept, is nearest to the right angle (the first of several), and that record lies inside the region. The waveform is stored as it is in the standard format and divided by its largest sample, stored beside it, in the extended one. For the echoes of a bright point at the surface the stored scale factor is the power of the target and the count in the middle is the largest there is. For a file of a circular pass above the equator, surface s is stated at the time, longitude, altitude and range of record s*K, and takes over the flags and counters of that record.", "quantifier": "all L1A files, regions, configurations, both L1B formats, all ways to round and wrap the packed numbers, and all values of the attributes not modelled", "why_tests_cant": "It follows values from the variables of one file to the variables of the other through reader, run, multilooking and writer; tests check the stages one by one.", "anchors": ["dedop/proc/sar/processor.py:L1BProcessor._process", "dedop/data/output/l1b_writer.py:L1BWriter.write_record", "dedop/proc/sar/algorithms/stack_gathering.py:StackGatheringAlgorithm.__call__", "dedop/data/input/l1a/l1a_dataset.py:L1ADataset.__getitem__"]}
{"id": "C142", "title": "From the configuration files to the numbers of the run", "statement": "The pulse and burst intervals, the chirp slope, the wavelength and the sampling interval are the quotients of the parameters of the files, for every file with numbers and no zero to divide by; otherwise reading them raises the error of the first parameter that is missing, null or no number, or of the division. Values kept never show: any sequence of reads gives each time what the first read would give. A wavelength or slope given to the object replaces the computed one and changes nothing else, but the same names in a file are warned about and change nothing at all. A processor is only made with a name, three files and a path; its threshold for gaps is one and a half burst intervals.", "quantifier": "all JSON documents, keyword arguments, orders of reading, and meanings of texts as numbers", "why_tests_cant": "Every later step uses these numbers, and values kept in the object could differ from those computed.", "anchors": ["dedop/conf/characterization.py:CharacterisationFile.__init__", "dedop/conf/characterization.py:CharacterisationFile.pri_sar", "dedop/conf/characterization.py:CharacterisationFile.wv_length_ku", "dedop/conf/characterization.py:CharacterisationFile.chirp_slope_ku", "dedop/proc/sar/processor.py:L1BProcessor.__init__"]}
{"id": "C143", "title": "What the products say of themselves", "statement": "At the end of a run each product carries the attributes of the L1A file it takes over, with the text Not available for those that are missing, its own title, name, software, constants and times, and no other attribute; the platform is passed on to the L1BS product only; all products are closed. The name of a product is as long as that of the L1A file; the level it states once is replaced and nothing else; the names of the two products are the same exactly when the L1A name states no level. Without a product name in the L1A file, or with a time that cannot be written, the run fails after its last record, with no attribute written and no product closed.", "quantifier": "all attributes of the L1A file, constants, times, clocks and library versions, with and without L1BS product", "why_tests_cant": "These steps come after the last record, so an error there loses a whole run, and a swapped attribute is not noticed by any computation.", "anchors": ["dedop/proc/sar/processor.py:L1BProcessor.process", "dedop/data/input/l1a/l1a_dataset.py:L1AGlobals.__init__", "dedop/data/input/l1a/l1a_dataset.py:L1AGlobals.get_l1b_product_name", "dedop/data/input/l1a/l1a_dataset.py:L1AGlobals.get_l1bs_product_name", "dedop/data/output/netcdf_writer.py:NetCDFWriter.write_globals"]}
{"id": "C144", "title": "Printing is fetched and the streams are put back", "statement": "After any program with blocks that fetch what is printed, nested in any way, ended or broken off by an exception, the standard streams are those of before, have got exactly the texts printed outside the blocks, and no other stream of before has changed; the exception is passed on; the streams of a block have got exactly what its body printed outside inner blocks.", "quantifier": "all programs that print, raise and nest such blocks; all earlier contents", "why_tests_cant": "All nestings and places of an exception.", "anchors": ["dedop/util/fetchstd.py:fetch_std_streams"]}
{"id": "C145", "title": "A run uses the numbers of its files", "statement": "Every constant, number, size, switch and limit a run works with is the one its three files state, in every place where it is used; whether an L1BS file is made is the only thing taken from the call. A run made from a processor is consistent whatever the files say: the pulse interval used for the surfaces and in the records is the inverse of the pulse frequency used for the beams, the wavelength belongs to the carrier frequency and the speed of light, the sampling interval to the clock, and a gap is one and a half burst intervals. Without any of the parameters used there is no run, and with a positive pi the run on any recording ends. With the files shipped there is a run (64 pulses, 128 samples padded to 256, stacks of 240 looks, no focusing, no region), and every L1A file that opens then gives an L1B file in which each record shows a surface seen by at least 120 records and takes over the flags of the record nearest to the right angle.", "quantifier": "all JSON documents, meanings of texts as numbers, calls and L1A files", "why_tests_cant": "It ties what is proved of runs to what a user writes into files, and shows that the conditions of those theorems hold for the files shipped.", "anchors": ["dedop/proc/sar/processor.py:L1BProcessor.__init__", "dedop/conf/configuration.py:ConfigurationFile", "dedop/conf/characterization.py:CharacterisationFile", "dedop/conf/constants.py:ConstantsFile", "dedop/conf/auxiliary_parameter.py:AuxiliaryParameter.__get__"]}
{"id": "C146", "title": "The text about a workspace", "statement": "When no name has a line break, the text about a workspace tells exactly which workspaces and configurations there are, in their order, which of them are the current ones, and the lines about inputs and outputs: two different states never give the same text. Every file of the inputs, and of the outputs of the current configuration, is listed once with its path and its size in MiB rounded down. There is no text exactly when one of these files has no size. (That missing inputs and outputs are always noted is false: with a current configuration without outputs, or an empty directory of inputs, nothing is said.)", "quantifier": "all lists of names, directories and sizes", "why_tests_cant": "Reading a text back is about all names at once; one entry that looks like a heading or a note would break it.", "anchors": ["dedop/ui/workspace_info.py:WorkspaceInfo.get_workspace_info_string"]}
{"id": "C147", "title": "The region test of all data sets and that of L1A files", "statement": "The test of the class all data sets derive from, made in radians on the packet, accepts exactly the usable positions within the limits in degrees. Going through a data set with it delivers exactly the usable records inside the region, in the order of the file, and nothing for each other record. The L1A data set, which tests in degrees beforehand, delivers the same records except the last one inside the region, and exactly the same when no limit is set; where it raises because the region is empty, the other test delivers nothing.", "quantifier": "all regions and files", "why_tests_cant": "Two implementations of one test that differ by one record; a test on points well inside and outside does not tell them apart.", "anchors": ["dedop/data/input/input_dataset.py:InputDataset.in_range", "dedop/data/input/input_dataset.py:InputDataset.__iter__", "dedop/data/input/l1a/l1a_dataset.py:L1ADataset.__next__"]}
