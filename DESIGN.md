# Formal model of DeDop/dedop-core in Rocq (Coq 8.16.1)

The model lives in `rocq/theories`, logical name `Verif`.  It is a *shallow*
model: each Python function is a Coq function that follows the Python code
branch by branch; exceptions are values (`Err ...`), Python `None` is `option`,
negative Python indices are modelled where the code uses them.  Nothing in
`/repo` is executed.

## Layout

Each domain `X` has up to four files:

* `XModel.v`  - definitions only; each cites file and lines in `/repo`.
* `XSpec.v`   - the small independent vocabulary the properties are stated in.
* `XProofs.v` - lemmas and proofs.
* `XProps.v`  - the theorems named in `MANIFEST.json`, each with
  `Print Assumptions` and a non-vacuity `Example`.

| domain | code | properties |
|---|---|---|
| `Chain` (with `ChainAux`, `ChainInv`, `ChainMain`, `ChainFacts`, `ChainEnd`, `ChainIndep`) | proc/sar/processor.py (main loop, queues, gap handling) | C01-C12, C16, C61 |
| `Beam`    | beam_angles.py, azimuth_processing.py (indexing), l1a_processing_data.py (trend), surface_data.py (look index) | C13-C15, C17, C18 |
| `Window`  | azimuth_processing.py (window) | C19 |
| `Stack`   | stack_gathering.py | C20, C21 |
| `Mlook`   | multilooking.py | C22-C25 |
| `Mask`    | stack_masking.py | C26-C28 |
| `Cplx`, `Dft` | cal1/cal2 calibration, range_compression.py; complex numbers as pairs of reals | C29, C69, C70 |
| `Az`      | azimuth_processing.py (steering, transforms) | C71, C72 |
| `Gcorr`   | geometry_corrections.py, sigma_zero_scaling.py | C30, C73, C74 |
| `Reader`  | netcdf_reader.py, l1a_dataset.py, input_dataset.py | C31-C34, C75 |
| `Writer`  | netcdf_writer.py, l1b_writer.py, l1bs_writer.py | C35-C37, C76, C77 |
| `Name`    | product names (processor.py), titles (workspace_manager.py) | C38, C56 |
| `Dict`, `Conf`, `ConfData`, `Param` | auxiliary files and parameters, configuration upgrade, tool configuration, the shipped files | C39-C45, C78 |
| `Fs`, `Ws` | workspace_manager.py over a file tree | C46-C49, C51-C53, C55, C79 |
| `Cli` (with `CurProofs`, `SelProofs`) | cli/main.py commands, webapi services | C50, C54, C57, C58, C80 |
| `Mon`     | util/monitor.py | C59, C60, C62 |
| `Geo`     | proc/geo, proc/functions/vectors.py | C63-C66, C81 |
| `Surf` (with `SurfMore`) | surface_locations.py | C67, C68, C82 |
| `Cfg`     | cli/main.py (selection) | C83 |
| `Dop`     | beam_angles.py (geometry), l1a_processing_data.py (Doppler angle), stack_gathering.py (look angle) | C84, C85 |
| `Sch`     | netcdf_writer.py (definitions), l1b_writer.py, l1bs_writer.py (variables and records), surface_data.py (GPS time) | C86-C89 |
| `Pkt`     | l1a_dataset.py (construction of a burst) | C90-C92 |
| `Char`    | multilooking.py (characterisation of the stack) | C93-C96 |
| `Insp`    | ui/inspect.py, ui/compare.py (opening, waveforms, limits, differences; widgets left out) | C97-C101 |
| `Io`      | ui/workspace_manager.py (inputs and outputs; model in `Ws`) | C102, C103 |
| `Fig`     | ui/figurewriter.py, ui/compare.py (closing) | C104, C105 |
| `Note`    | ui/workspace_manager.py (notebook texts and commands) | C106, C107 |
| `Cryo`    | ui/data/cryosat_config | C108 |
| `Web`     | webapi/websocket.py (configurations, coordinates) | C109, C110 |
| `Acc`     | proc/geo/ecef2lla.py (accuracy) | C111 |
| `Full`    | proc/sar/processor.py (completeness of stacks) | C112 |
| `Flow`    | attributes of surfaces and bursts over the steps of proc/sar/processor.py | C113–C114 |
| `Point`   | azimuth processing, stack gathering, geometry corrections and range compression composed | C115 |
| `Iso`     | util/time.py, times in product attributes | C116 |
| `Wsw`     | webapi/websocket.py (workspaces), ui/workspace.py | C117, C118 |
| `Lin`     | calibration, the steps of `Point` and multilooking as functions of the samples | C119, C120 |
| `Rot`     | the models of `Geo`, `Surf`, `Dop` and `Point` under rotations and mirroring | C121 |
| `Whole`   | proc/sar/processor.py with the geometry and the looks filled in (`Chain`, `Surf`, `Dop`, `Lin` composed) | C122-C124 |
| `Iter`    | proc/geo/ecef2lla.py (ecef2lla_iterative) | C125 |
| `Made`    | cli/main.py (run), proc/sar/processor.py and netcdf_writer.py (files made), model/processor.py (DummyProcessor) | C127 |
| `Clock`   | no model of its own: runs of `Whole` whose records carry other times | C128 |
| `Curve`   | ui/inspect.py (line, im_line, waveform_line: curves, widgets, figure names) | C129 |
| `Opened`  | no model of its own: `Cli` (out_inspect, out_compare) | C130 |
| `Show`    | cli/main.py (lists, versions, status) | C126 |
| `Arg`     | cli/main.py (parsers, confirmations) with the standard argparse | C131 |
| `HoleSpec`, `HoleProofs` | processor.py 183-290 with records for which the reader returns nothing | C135 |
| `ManySpec`, `ManyProofs` | processor.py 183-290, beam_angles.py 40-90 with more surfaces in sight than pulses | C136 |
| `LaidSpec`, `LaidProofs` | processor.py 183-290 with surface_locations.py 84-124, 232-328 and beam_angles.py 31-82 | C137 |
| `CircSpec`, `CircProofs` | lla2ecef.py 7-32, surface_locations.py 84-124, 232-328, beam_angles.py 31-82, l1a_processing_data.py 856-927 on the equator | C138 |
| `FileModel`, `FileSpec`, `FileProofs` | l1a_dataset.py 86-263, netcdf_reader.py 45-75, input_dataset.py 18-27 | C139 |
| `MonHistSpec` | ui/console monitor: calls so far, failures and last words | C62 |
| `WaveModel`, `WaveSpec`, `WaveProofs` | stack_masking.py 21-162, multilooking.py 76-276, stack_gathering.py 37-126, l1b_writer.py 717-728, 857, 926-927 on the looks of a run | C140 |
| `EndModel`, `EndSpec`, `EndProofs`, `EndRing` | processor.py 130-347, stack_gathering.py 104, 137-141, surface_data.py, l1b_writer.py 845-927, 1567-1660 on the run of WholeModel | C141 |
| `WaveMove`, `MoveSpec`, `MoveProps` | the moved pass from the looks to the L1B file (no new model) | C123 |
| `DerModel` | conf/characterization.py 108-146, proc/sar/processor.py 40-104 | C142 |
| `GlobModel` | proc/sar/processor.py 278-347, l1a_dataset.py 15-82, 276-277, netcdf_reader.py 80-84, netcdf_writer.py 335-339, 377-388 | C143 |
| `FetchModel` | util/fetchstd.py 7-39 | C144 |
| `JobModel` | proc/sar/processor.py 40-104, 159, 415-422, 546-563, conf/configuration.py 7-92, conf/characterization.py 8-132, conf/constants.py 4-41, conf/enums.py 10-31 | C145 |
| `InfoModel` | ui/workspace_info.py 4-63 | C146 |
| `BaseModel` | data/input/input_dataset.py 29-52 | C147 |

## Number systems

Where only field operations and comparisons matter (multilooking, weights,
masks, monitors, interpolation, scaling) numbers are exact rationals (`Q`) or
integers (`Z`).  Where `sqrt`, `sin`, `atan2` are needed they are Coq's reals
(`R`).  IEEE rounding, overflow and NaN propagation are **not** modelled; where
a division by zero can occur it is an explicit outcome.

## Per property: what is modelled and how it is proved

* **C01** (proved) The main loop as an iterated step function with fuel; the oracle record (new-surface decision, gap decision, visible surfaces, cancellation schedule) is universally quantified. Proved with a decreasing measure: an explicit fuel bound suffices and the fuel-exhausted outcome is unreachable. Bound 1 + 3*records + left-over surfaces on loop iterations, for every oracle, cancellation schedule and left-over state; OFuel never occurs.
* **C02** (proved) Loop invariant: queue counters strictly increasing and above every written counter; L1B and L1BS logs equal by construction of the step, shown by invariant. L1BS equals L1B except when writing the L1BS record itself raised.
* **C03** (proved) Loop invariant on the packet queue (unique packets, processed flag) and on every surface's stack.
* **C04** (proved) Invariant relating the write log, the drop log and the stack size at decision time.
* **C05** (proved) Invariant: while surfaces located before a gap are queued, no packet read after the gap is in the packet queue.
* **C06** (partial) False in the model: a left-over unprocessed packet may be beam-formed for post-gap surfaces. Witness run given (`_refuted`); partial theorem when no packet is left over. False of the code: bursts that the surface loop left unprocessed before the gap are beam-formed for post-gap surfaces (processor.py 233-243, 266-272). Partial: holds when no pre-gap burst sees the post-gap surface.
* **C07** (partial) False: the gap burst is calibrated twice. Witness; partial theorem for gap-free runs, and the exact count (1, or 2 for a burst that follows a gap). False of the code: the first burst after a gap is calibrated at lines 205-206 both when the gap is found and when it is resumed. Partial: exactly once for every other burst used, exactly twice for those.
* **C08** (proved) Invariant at exit of the loop.
* **C09** (partial) False: an invalid record met while no surface is queued ends the run. Witness; partial theorem when all records are valid. False of the code: an invalid/out-of-region record while no surface is queued ends the run. Partial: a normal end happens only at end of input or at such a record; with valid records only everything is read.
* **C10** (partial) False: fewer than 80 surfaces in the last segment raise. Witness family (any gap-free input shorter than 80 surfaces); partial theorem giving a sufficient condition for normal completion. False of the code: fewer than 80 surfaces after the start or the last gap raises "insufficient input records" and leaves the files open. Partial: complete list of the causes when no numerical/writing step fails.
* **C11** (proved) Simulation between the cancelled and the uncancelled run.
* **C12** (partial) False: `_packets`, `_surfaces` and the focusing flag leak. Two witnesses; partial theorem by a simulation of the run with processed left-overs by the run without. False of the code: source_isps/surf_locs survive a run, so bursts of an earlier file enter stacks of the next; even when all left-over bursts were processed, equal record numbers of the two files change the result (second witness); after a cancelled run the next product holds surfaces of the earlier file (third witness). Partial: left-over bursts that were processed and carry other record numbers do not matter; left-over surfaces come first and unchanged.
* **C13** (proved) Fold over the history of sizes; independent characterisation of the trend by the last strict change.
* **C14** (proved) Arithmetic on Python indices, case analysis on trend; invariant linking trend and size from C13.
* **C15** (proved) Scan over the queue; characterisation by take-while of the first visible run and `last N`.
* **C16** (proved) Loop invariant in `Chain` with the pairing loop modelled literally.
* **C17** (proved) Integer arithmetic.
* **C18** (proved) Rows written modelled as finite maps; each selectable row has a definition.
* **C19** (partial) Window over R; the shape part is false for hamming/hanning (formulas swapped): `_refuted`, partial theorem for boxcar, support and symmetry. False of the code: the hamming and hanning formulas are exchanged (azimuth_processing.py 61-66), width 1 gives NaN. Proved: size, support, centring, boxcar, disabled, weighting of both parts of every sample, and that the shapes are exactly exchanged, symmetric and within [0,1].
* **C20** (proved) argsort as any stable sort by absolute value, window start = minimum of the first n positions; proofs about permutations and unimodal sequences. numpy.argsort is any function returning a sorting permutation; the order of equal values is left open. The smallest-look part needs strict decrease/increase; a plateau counterexample is shown beside it.
* **C21** (proved) Fold argmin. Also shown: an empty stack keeps the previous surface's index.
* **C22** (proved) Sums over Q; independent spec with filter and sum. Mean over Q; a sample without contributions is NaN (0/0).
* **C23** (partial) Fold over indices; spec with first/last. False of the code for the waveform when no beam is kept (division before the test gives NaN). Everything else proved.
* **C24** (partial) False: first and last of the whole stack are reported. Witness, partial theorem when the edge beams are kept. False of the code: lines 313-316 use the ends of the stack. Partial: exactly those ends are reported, so it holds when they are kept.
* **C25** (partial) False (the interpolation weight subtracts a weight from an angle). Witness, partial theorem outside the table and on flat tables. False of the code: line 215 subtracts a weight from an angle. Partial: outside the table; inside, equality with the interpolation iff the two weights are equal or the left weight equals the left angle.
* **C26** (proved) Masks over Z lists; characterisation of the vector by the last kept position.
* **C27** (partial) False for last kept position B-1 and B-2. Witness, partial theorem: only that pair collides. False of the code: the last and the last-but-one position share a vector value. Partial: that is the only collision.
* **C28** (proved) Half-even rounding over Q, list ranges.
* **C29** (proved) Rotations of lists for all lengths; the discrete Fourier transform as finite sums of complex numbers (pairs of reals), inversion from the orthogonality of roots of unity. Over exact complex numbers (pairs of reals). A table entry that is not positive gives non-finite samples and is the outcome None.
* **C30** (proved) Real algebra: the reference cancels in the total shift.
* **C31** (proved) Cache invariant over every access history. Data file, variable lengths and chunk size universally quantified; every read sequence over valid indices.
* **C32** (partial) False after a longer variable moved the chunk window. Witness, partial theorem on a fresh reader. False of the code: when the requested index lies in a chunk wholly beyond the variable, the previous chunk is served; negative indices are also served. Partial: the first read, and any index whose chunk overlaps the variable, are rejected.
* **C33** (partial) False: the last record in the region is dropped. Witness, partial theorem: everything except the last one. False of the code: the last record of the region is dropped because the maximum index is used as an exclusive bound. Partial: exactly all records from the first to the one before the last are delivered; an empty region raises. A record delivered keeps every limit set, whichever are set.
* **C34** (proved) Two iterators as list functions; equality by induction.
* **C35** (partial) Table model (variable -> row -> option value) with failing writes. False of the code after a failed write: the half-written row stays and is mixed into the next record where that supplies nothing, and the record count grows. Proved: supplied values are always stored, earlier rows untouched; partial: fill and count without a failure right before.
* **C36** (partial) Preservation proved; the half-open range is false at exactly midnight and the first surface of a run is wrong: `_refuted` + partial. False of the code at exact midnight, inside a leap second and for the first surface (day 1, whole TAI as seconds). Partial: calendar pair for all other instants between bursts of the same or consecutive days, over any calendar with leap seconds.
* **C37** (partial) Order reasoning over Q. False of the code as equality: conversion to int8 truncates. Range proved for scaled and stored numbers; partial: error below one step.
* **C38** (proved) Strings as lists of characters. File and path names as strings; directory part handled with POSIX rules.
* **C39** (proved) Association-list configuration, fold over changelog; spec by last change. JSON documents as values; the default document is any one with that version and changelog. An addition the default lacks makes the upgrade raise (proved). Serialisation round trip assumed.
* **C40** (proved) Corollary of C39 plus version check of the reader. Idempotence for arbitrary documents; version and loadability for well-formed ones. The command: with all three files readable and upgradable, all or none are upgraded.
* **C41** (proved) Association lists; override semantics. Numbers as exact rationals; booleans count as 0/1 like in Python. Entries without a value also make loading fail (part of the characterisation).
* **C42** (proved) Cache keyed by instance; invariant over access histories; which declarations make a parameter optional. Conversions are oracles. A typed optional parameter without default raises when absent and a subclass sees no parameters (examples); neither is declared in the repository.
* **C43** (proved) Class hierarchy as a tree; fold of dictionaries. Availability for every hierarchy with a C3 resolution order; value for single inheritance. The bare except is modelled as: any failure gives the default.
* **C44** (partial) False for multiple inheritance: witness; equality proved for single inheritance. False with two bases declaring the same name; agreement proved for single inheritance, same set of names always.
* **C45** (partial) State machine with cached configuration; false if a configuration file exits the interpreter. Holds unless a configuration file exits the interpreter (SystemExit is not caught): then later queries ignore the local file. Mutation of the returned dictionary by callers not modelled.
* **C46** (partial) File tree as nested finite maps; frame theorem for every operation and sequence. File system is a finite tree (no links, permissions, concurrency). Holds for names that are single path components, for every history including failing calls; false for names with separators (witness).
* **C47** (proved) Case analysis of makedirs semantics. All names and trees. A name taken by an empty directory is accepted.
* **C48** (proved) copytree semantics. Single-component names. Independence: all later histories that do not name the workspace.
* **C49** (partial) shutil.move semantics; false when the target exists (nested): `_refuted` + partial. False of the code: renaming a workspace onto an existing one moves it inside that one (shutil.move), a configuration onto an existing empty one succeeds. Partial: free target names; the other target cases are characterised.
* **C50** (partial) Bare manager operations leave a dangling selection: `_refuted`; invariant over all sessions of commands. False of the code for bare manager operations (web rename): the selection keeps the old name (witness). Partial: all sessions of command-line, web and manager calls with ordinary names and no bare delete or rename, from any sound tree.
* **C51** (partial) False for the empty name; proved for proper names. False of the code for the empty name and "..": all workspaces are deleted. Partial: proper names delete exactly themselves.
* **C52** (proved) Sorting of directory listing. Any tree without duplicate entry names, an invariant of every history (C52_history). Also the notebooks of a workspace.
* **C53** (partial) False: duplicates with overlapping patterns; proved for a single pattern. False of the code for several overlapping patterns (duplicates); fnmatch is an oracle. Partial: membership, order and multiplicity.
* **C54** (proved) Termination by pigeonhole on finite sets. Names as lists; the loop bound is shown to suffice and not to matter.
* **C55** (proved) Same technique. Loop with an explicit bound that suffices. Base names without separator.
* **C56** (proved) Length arithmetic. Titles as strings; every limit.
* **C57** (proved) Nested loops with first failure; the processor is an arbitrary oracle. Building a processor and processing an input are oracles with arbitrary effects on the tree and arbitrary failures, depending on everything before.
* **C58** (partial) False (wrong variable tested): `_refuted` + partial. False of the code for mixed kinds and an omitted second product (witnesses). Partial: the first product always, the second one of the same kind.
* **C59** (partial) Trace semantics of starting with a task that may raise. All task programs (raise, catch, nest, restart, cancel). Passing on of the result is false only for a task that restarts its own monitor with a total below a monitor without one (done raises TypeError); proved for tasks that do not restart it.
* **C60** (proved) Sum over Q through nesting. Ancestors started with non-zero totals; otherwise progress raises (example beside). Amounts are exact rationals.
* **C61** (partial) False when a gap occurs: witness; proved for gap-free runs. False of the code: each gap adds up to one unit of work to the one unit per record. Partial: work <= records read + number of gaps.
* **C62** (proved) State machine of the console monitor. Texts without line breaks; terminal modelled as one line with overwrite semantics and unbounded width.
* **C63** (proved) Iteration with a bound from the archimedean property; range and congruence. Real numbers instead of floats (also C64-C68, C81, C82); the loops have an explicit bound, shown to suffice for every angle.
* **C64** (proved) Real algebra with trigonometric identities. Any ellipsoid with 0 < minor <= major.
* **C65** (partial) False at the south pole: witness; proved in the north and for arrays of points. False of the code at the south pole: the altitude has the wrong sign (witness). Partial: north.
* **C66** (proved) acos range, Cauchy-Schwarz. Vectors of any equal lengths; zero vectors give not-a-number.
* **C67** (proved) Interpolation algebra, and an invariant over histories of bursts for the order of times. Not-a-number results are explicit. The increase of times is proved over all histories of bursts not sparser than the surfaces; an example shows it fails otherwise.
* **C68** (partial) Vector algebra plus invariant over histories. False if the predecessor is exactly on the target. False when the predecessor lies exactly on the target: the position becomes not-a-number (witness). Partial: all other cases, all histories; the condition for moving is exact.
* **C69** (proved) Parseval for the zero-padded transform; power samples are squared moduli.
* **C70** (proved) Gains in decibels as powers of ten; neutral calibration tables change nothing.
* **C71** (proved) Closed formulas for both azimuth methods; energy conservation.
* **C72** (partial) Equality of the two closed formulas at the nadir beam. False of the code: when the burst sees fewer than half of the beams the approximate method stores an off-centre bin. Partial: they agree whenever the list contains position N/2 (N even).
* **C73** (proved) Phase ramps: unit modulus, and integer shifts rotate the transformed samples.
* **C74** (proved) Radar equation in logarithms; the illuminated area is characterised by the equations of beam width and pulse-limited radius. Logarithm arguments positive; an empty stack gives NaN.
* **C75** (proved) Index arithmetic of regions. Non-empty delivered range; for a region holding only record 0 nothing is delivered and reading the last time raises (C75_single_record_region).
* **C76** (proved) Rounding over Q: quantum and fill value. Rounding is any round-to-nearest; exact rationals.
* **C77** (proved) Association lists.
* **C78** (partial) Computation on the shipped files, and induction over all older configurations. False for the characterisation file. False for the characterisation file: the shipped CHD.json lacks the three antenna table parameters; proved for everything else.
* **C79** (partial) Frame theorem inside a workspace. Single-component names; the empty configuration name deletes all configurations (witness).
* **C80** (partial) Invariant over sessions, as C50. False of the code for bare manager operations, as C50. Partial: sessions with ordinary names and no bare delete or rename.
* **C81** (partial) Bowring's formula is exact on the ellipsoid: trigonometric identities. Other altitudes: on the equator here, everywhere within a bound in C111. Partial: exact on the ellipsoid and on the equator; at other altitudes the closed formula used is an approximation (C111 bounds its error). Requires a flattening consistent with the axes.
* **C82** (proved) The satellite is the surface point plus the altitude along the normal. Exact real arithmetic.
* **C83** (proved) Statement about the tree after each command. Ordinary names: no separators, line breaks, and not the marker name. Removal and renaming of the selected workspace is C50_selected_partial.
* **C84** (proved) Vectors over R; visibility by monotonicity of the cosine; the scan of C15 instantiated with the geometry, sorted lists. Exact real arithmetic; cst.pi taken equal to pi. A velocity or distance of zero is an explicit outcome.
* **C85** (partial) Vector algebra; double cross product is the projection. Witness for the sign. False of the code: the angle between the velocity and its own projection is never above pi/2, so lines 926-927 always negate it; for a climbing satellite the look angle below is twice the (negative) angle of climb. Partial: zero when not climbing; the exact value otherwise.
* **C86** (partial) Tables as data, opening and writing as functions (C35's table); shapes by induction on expressions, tables by computation. The tables are extracted from the define_variable and write_record calls. Fill values: false of the code for the L1BS beam form (8-bit type, fill 65535); partial: all others.
* **C87** (partial) Packing with rounding and overflow as oracles; exact interval of a packed variable, ranges by computation over Q. False of the code for the look angles of the extended product (packed around pi/2, values around 0) and for unused entries of the beam angle arrays (they read back as beam angles). Partial: the listed ranges; the exact interval of every packed variable is C87_capacity.
* **C88** (partial) Evaluation of the keyword arguments over R; comparison of tables by computation. Witnesses. False of the code: L1BS attitude angles are in radians but declared in degrees; the L1BS surface type is always 0; the beam angle of the standard product is minus the look angle. Partial: all other quantities; the lists of differing names are exhaustive.
* **C89** (proved) Gregorian calendar computed. Leap seconds between GPS and TAI are constant (19 s).
* **C90** (partial) Table of keyword arguments as data, composed with the write tables of C86 by computation; independence by the variables an argument reads. False of the code for the attitude: roll, pitch and yaw are read from the antenna mispointing variables, and the satellite attitude variables are not used but for the window delay (witness). Copied variables: proved for all.
* **C91** (partial) Error formula; cosine bounds by monotonicity and double angle. Witness at pi/3 degrees. False of the code: the pitch angle, read in degrees, goes to the cosine without conversion; a pitch of about one degree shifts the range by more than a quarter of the offset. Partial: no pitch, and an error bound up to one degree.
* **C92** (proved) Powers of ten as real exponentials. Exact real arithmetic.
* **C93** (proved) Window as integers; first minimum by induction; padding excluded because beam angles are in [0, pi]. curve_fit is an oracle (parameters, a caught exception, another exception). Exact real arithmetic (also C94-C96).
* **C94** (partial) Sums and maxima over R; homogeneity. Witnesses. False of the code: only the first half of the samples counts, and the maximum stack power is relative, so it does not change when the echoes are amplified (witnesses). Partial: relative powers of the first half; the invariance of all parameters is proved.
* **C95** (partial) Bells with equal graphs have equal parameters (logarithms at three points). Witnesses. False of the code: the stated standard deviation is c/2 where that of the fitted bell is |c|/sqrt 2, it can be negative, and a failed fit is stated as 1, 1, 1/2. Partial: the bell expressed in the stated numbers. The fit gets exactly the finite points with their own angles (proved).
* **C96** (proved) Sums over lists; Pearson's inequality from a sum of squares. Moments of the fitted curve sampled at the beams, as computed; a constant curve is an explicit outcome.
* **C97** (proved) File as data; names needed checked against the three tables of C86 by computation. A file is its variable names and the values of one- and two-dimensional variables, without masked entries; conversion of times to dates is left out. Exact real arithmetic (also C98-C101).
* **C98** (partial) Composition of the write tables with the reader; witnesses built generically for every product. False of the code: the variable read as a scale is the sigma0 scaling factor in dB, so waveforms are shown upside down when it is negative and as zero when it is 0 dB (witnesses for all three products). Partial: proportional record by record. Packing (C87) is left out.
* **C99** (partial) Truth of a number as a case distinction on zero. Witnesses. False of the code: a limit of 0 is ignored, choosing a variable in the notebook uses the upper limit twice, drawing lines outside it the lower limit twice (witnesses). Partial: limits other than 0.
* **C100** (partial) Membership under filter and permutation. Witness. False of the code: the waveforms are drawn whatever variable is named (proved for all files; witness where all of it lies outside the colour range). Partial: for which names a figure is made, and its limits.
* **C101** (partial) Rectangles as lists; extents are unique bounds. The clause on axes is false of the code for the waveforms: they are drawn on the axis of the differences (proved for all products compared with themselves).
* **C102** (partial) The set of files of a tree before and after; induction over the list. False of the code: files with equal names overwrite one another silently, an unknown workspace is created, and names that contain paths remove files elsewhere (witnesses). Partial: distinct plain names in an existing workspace. The command removes, when confirmed, exactly the files meant by the patterns.
* **C103** (partial) Same; the directory is its listing. False of the code: a directory among the outputs stops the removal part-way (proved in general). Partial: directories of files. The command refuses when no product is listed, and else removes also files that are no products.
* **C104** (partial) Last component and extension as relations, shown to be functions; resolution of paths for the result. Paths of single-byte characters on a POSIX system. False of the code: the guess of the format ignores case and the check does not ("x.Pdf"), and every path with another extension, including a directory with a dot, is refused.
* **C105** (partial) Induction over the actions; witnesses are general in the figures. Figures are opaque and count as written when they are added. False of the code: saving after closing starts the file again, and equal names replace one another, in particular for the two products of a comparator. Partial: until the first closing; distinct plain names.
* **C106** (partial) Readers for JSON strings and Python literals in NoteSpec; case analysis over all characters. Characters below 256; the text is taken to the file unchanged; JSON and Python are read by small readers for the escapes that occur. False of the code: a quote in the path ends the JSON string (proved for all such paths), and a first path with the mark of the second is replaced in turn (witness).
* **C107** (partial) Reader for shell words in NoteSpec. Witnesses. Linux, nothing configured; a small reader for shell words without expansions. False of the code: quotes, backslashes, dollars and backquotes, and without a terminal braces, are not escaped (witnesses). Partial: xterm, GNOME and no terminal; names without these characters.
* **C108** (partial) Computation on the transcribed files; C39 for derived configurations. The first clause is false of the shipped data: CHD.json for CryoSat-2 is of version 0 and is refused until it is upgraded. Everything else is proved.
* **C109** (partial) The set of files of a tree before and after (IoSpec). json.dumps and json.load are arbitrary functions. False of the code: a section not sent replaces its file by null, after which the configuration cannot be read; a failure leaves earlier files replaced (both proved in general).
* **C110** (partial) Monotone lists; the witness is general in the track. Exact real arithmetic, no masked entries. False of the code: the first and last values are returned (proved wrong for every pass over a turning point). Partial: monotone tracks.
* **C111** (proved) Explicit error bounds by a cubic estimate of Bowring's formula, then numbers for the shipped constants. Exact real arithmetic (rounding of doubles is not modelled). The altitude statements exclude the zone within a metre of the axis, where the code uses another formula (C81).
* **C112** (proved) Invariant: beam-formed bursts form a prefix of the file reaching two past the last sight of the surface just decided; queued bursts reach back to the first sight of the next. The geometry is an oracle restricted to regular passes (FullSpec.regular); the code's constants (64 pulses, 80 surfaces) satisfy the condition. A witness shows that locating fewer surfaces in advance loses bursts.
* **C113** (proved) Sets of attributes computed along the chain; a table of all 720 orders. Values are abstract; the attributes read and set by each algorithm are tables transcribed from the source, a conditional read counting as a read. Index errors and errors inside the numerical functions are left out.
* **C114** (partial) Equal outcomes for two arbitrary states of the algorithm objects (FlowSpec.agree). Same tables as C113. False of the code in two places: a surface seen by no burst gets the closest-burst index of the surface before (it is then not written), and the first surface of a pass or after a gap keeps the UTC reference of the one before (proved for all states). Everything else is proved.
* **C115** (proved) Echo model in PointSpec; sums of unit vectors: triangle inequality, strict for two vectors that differ. Exact real arithmetic, cst.pi equal to pi, no azimuth window. The echo model (PointSpec.echo_sample) is a deramped point target with constant speed over the burst, and a Doppler shift acting as a delay of f*T/B; its sign conventions are those under which the code is right.
* **C116** (proved) Calendar by counting days and meaning of texts in IsoSpec; computation on one 400-year cycle, then shifts. Times are exact rationals: the rounding of the double and timedelta's own floating-point split are not modelled; days have 86400 seconds, as in the code.
* **C117** (partial) Tree before and after; the choice as a relation on the tree (WswSpec.chosen). False of the code in one part: deleting a workspace that is not selected moves the selection (proved for all trees with a workspace called default). The rest is proved.
* **C118** (partial) Computation; equivalences and witnesses for the false parts. Proved: the objects returned by select, create, copy and rename. False of the code: the selected workspace is said not to be selected, and its directory is wrong unless the manager uses the default place (proved as an equivalence); plain files are listed as workspaces; the JSON form never reads back; saving always fails; an opened workspace has the directory above it.
* **C119** (proved) Relations between the results of two runs (LinSpec): each step commutes with factors; multilooking by a relation on its accumulator. Exact arithmetic, exact beam-forming method, no azimuth window; powers of the looks over R, multilooking over Q. A calibration that gives samples which are not finite gives no image in the model. Also proved: an automatic gain d decibel higher divides the powers by 10^(d/10), with CAL1 on.
* **C120** (proved) Phase ramps multiplied out sample by sample; permutations of the list of bursts. Exact real arithmetic, cst.pi equal to pi, stated on calibrated samples (CAL2 corrects positions in the window, so it does not commute with a shift); sign convention of the echo as in C115.
* **C121** (partial) Two runs related by a motion (RotSpec.moved_state), kept by every operation on the queues. Exact real arithmetic, cst.pi equal to pi. False of the code within a metre and a half of the axis, where the test for the axis is a square and the altitude has the wrong sign in the south (witness and proof). Partial: surfaces found clear of the axis; angles and powers without this condition.
* **C122** (proved) Oracle built along the run; invariants: queues of geometry and loop are parallel, every entry of a stack is an angle computed from the surface it belongs to. Number of calibrations from the count of C07; no record is used after one that cannot be read. Exact real arithmetic; the loop, surfaces, beams and looks are the models of C01-C10, C67, C68, C84 and C119. Looks with the exact beam-forming method and no azimuth window; stacks and looks stated without focusing (with it the last surface moves after it was seen). Which looks are kept and in which order (C26-C29) is an arbitrary function of the look angles. A velocity for which the arc cosine fails counts as a failure of azimuth processing: the run ends with the same products. Calibration is in place, so the burst of a gap is calibrated again when the run resumes with it (a defect of the code, C07): C122_calibrations, C122_twice.
* **C123** (partial) Two runs related by a motion; the loop of both is literally the same. The waveforms see only lengths and angles; `C123_file_partial` follows the places and velocities into the file. As C121: false of the code within a metre and a half of the polar axis, so partial: as long as the surfaces found (on a steady pass: the surfaces laid) are clear of the axis; latitudes and longitudes within the range of one normalisation. On a circular pass above the equator this premise is not needed (C123_circle). Also proved for the waveforms and for the records of the L1B file.
* **C124** (proved) Two runs with equal geometry; C119 for each surface. Same model as C122; multilooking after the looks is the subject of C119.
* **C125** (partial) The iteration is a contraction in e2 N/(N+h) (IterConv); the error bound by induction on the number of iterations. Exact real arithmetic; a division by zero (points deep inside the Earth) is an outcome of its own. Partial: the error bound depends on the number of iterations made, because the test for convergence of the code does not imply accuracy (witness and proof). Points nearer to the centre than nine tenths of the radius are not covered, except on the axis.
* **C126** (partial) Sizes by enumeration of the files (ShowSpec.weighs) and by one lemma on writes; lists through C52 and C53; status through C50. Argument parsing is left out; a file has as many bytes as characters; texts of locations and of system errors are parameters. No links, permissions or other processes. Partial: status in sessions with ordinary names; false after a web client renames the current workspace (witness and proof). The names in the status can be read back when none has a comma, and not otherwise (witness).
* **C127** (partial) Files as a relation path/content (IoSpec.file_at); every step changes products only, induction over the events of C57; lists through C53. What a product says is an arbitrary function of the configuration texts, the name and the content of the input; a product appears with its final content also when processing fails half way. No links, permissions or full disks. Partial: inputs whose names differ only in the prefix "L1A" share a product, the first is lost (witness and proof).
* **C128** (proved) Two runs with related times (ClockSpec.retimed_item); the loop sees times only in the test for gaps. Exact arithmetic: rounding of large times is left out. Same model as C122; the surface found first takes the time of the first record, later ones are mixed of the times of two records.
* **C129** (partial) Invariant of the panel of widgets over sessions; names by splitting at the first dash. Only the data handed to the plotting library and the widgets are modelled. False of the code: started with the name of an abscissa the first ordinate may be over a dimension of another size (no curve); with a negative index the line in the image is not at the row shown; names of variables with a dash can give equal figure names (witnesses). Partial: sessions started without an abscissa or with a dimension selector, indices that are not negative, names without a dash.
* **C130** (partial) The command is reduced to one notebook written (C55) with the path computed from the name (OpenedSpec.product_named). The text of a notebook is a function of the paths; the notebook server is not started in the model. False of the code for comparisons: whether the second name is a path is decided by the first one, and without a second name the command fails with a TypeError (witnesses). Partial: both names are paths or both are names of outputs.
* **C131** (partial) Tables of parsers and the loop of argparse; the greedy match is shown to be the lexicographically greatest sharing (ArgSpec.best), the loop by induction on the options written. argparse is modelled after Python 3.6; the separator -- and flags written together are outside. False of the code: an option between two words of copy, rename, compare, input add or input remove makes the line an error (proved for all names). Everything else holds for options before and after the words. ArgMoreProps adds negative numbers, unknown options, joined and = forms, groups without a command.
* **C132** (proved) Simulation of the loop with more to read until nothing is left of the shorter recording; at that moment at most min_surfs - 1 surfaces are queued (invariant) and no further surface is located.
* **C133** (partial) Simulation of the run after the gap with a fresh run (bursts left over, counters shifted), and of the surfaces processed at the gap with those processed at the end of the first part. False of the code in three ways (witnesses): bursts left over before the gap become looks of surfaces after it; the numbers of the beams after the gap depend on the bursts before it, since the trend is not reset; a part with too few surfaces fails alone but is processed when a gap follows. Partial: no burst left over, the exact method, and the numbers of beams aside.
* **C134** (partial) Invariant of the loop: the bursts held are a suffix of the valid records dealt with, and start at or after the first look of every surface written; the bound counts numbers between two locations. False of the code without the premises: bursts are released only when a surface is written, so on a regular pass with too few looks per surface all bursts are held at the end, whatever the length (proved for every length). Partial: the bound with the premises named.
* **C135** (partial) The invariant of C112 over ranks among the valid records instead of record numbers; the surfaces located in advance are bounded below by the margin minus the invalid records passed so far. False of the code without the margin: each record without a position makes the loop process a surface without reading a burst, so looks are lost (C135_margin_refuted), enough of them in a row end the run with the rest of the file unread (C135_rest_refuted), and a first record without a position means nothing is processed at all (C135_first_refuted, for every file).
* **C136** (proved) The invariant of C135 with the set of kept looks instead of all looks: a beam is kept when it is among the last N surfaces in sight, so a look of s is lost exactly when s+N is also in sight and already located. A generalisation of C112 and C135 (C136_regular: their geometries are the case M = N). The geometry must still be such that the first burst that sees a surface does not see the surface N further. C136_example is a pass with N = 2 and three surfaces in sight, where every stack but those at the end lacks its last look.
* **C137** (proved) Simulation of the loop with its geometry by the loop with one oracle for the whole recording: the queue of surfaces is a stretch of the list laid, the last burst queued is the last one read; then C136 and, for the end, the causes of errors of C10. Joins C122 (the loop with its geometry) and C136 (stacks for an oracle): the oracle is computed from the geometry here, once for the whole recording (laid, in_sight). Steady asks that surfaces come into and go out of sight in order, which C138 derives for circular orbits. Stacks are stated for runs that end or are cancelled: after an error the last surface written may be incomplete. The witness is C137_example in CircProps.
* **C138** (proved) Positions in polar coordinates; the off-nadir angle grows up to the horizon (a polynomial inequality in two cosines); induction over the bursts lays a surface every K records; the rest is C137. Exact real arithmetic: the resolution is exactly the angle to the ground K records on, so surfaces fall exactly below records. All records lie within the horizon of each other (p_far, p_horizon); the code has no horizon test and would see ground behind it. No record is at latitude and longitude 0, which the code takes for a record without a position, and longitudes are within half a turn (p_place).
* **C139** (proved) Reads through the cache give the records of the file (C31); the data set is unrolled into the list of its items; a region reduces to a cut file by comparing these lists; C132 and C138 then apply. A file is complete if every variable has a value of its kind for each record (masked values are outside). Time, latitude and longitude are rational numbers, the others real. That the last record of a region is lost is the defect of C33; without a region all records are used.
* **C140** (proved) The mask row is compared with the indices before the shift; induction over the looks for the two sums; the rows of the looks come from C115 with the angles of C122, where the bound on the number of beams is carried through the loop; gains through C124. Exact real arithmetic; the looks are those of C122 and C115, the masks and the multilooking are modelled here on real shifts. The point target is stated without calibration tables and without antenna weighting (plain); the sample formula holds with both masks and weights. Echoes are those of a deramping altimeter (PointSpec), the same phase reference for all samples of a pulse. The counts are those of the extended format, with the rounding of the NetCDF library left open.
* **C141** (proved) The records of the writer (C86) are those of the products of the run; each variable is followed through the list of sources of the format; the closest look by induction over the looks; C140 for the bright point; on the circle the locations of C138 are inverted with C81. Exact real arithmetic. Attributes not modelled in the run (statistics of the stack, sigma-zero, start and stop angles, mask vectors) are arbitrary, of their usual shapes; a value that is not a number is an arbitrary one. A write that fails is left to the failures of the run (u_w1_fail). Packing is that of SchModel, with rounding and wrapping left open. The bright point is stated under the conditions of C140 and the circle under those of C138 with a ground radius above sqrt 2 metres (the guard of ecef2lla).
* **C142** (proved) By cases over the five values; a read leaves the data and thus all answers alone (`read_step`); for names in a file by C41. Numbers are exact; a float parameter is read as in C42; warnings are left out of the processor.
* **C143** (proved) Writing distinct names keeps each value (`write_in`, `write_other`); names by induction over the text, the first occurrence decides. Attribute values are texts or numbers; the netCDF library stores them as given; the times are those of C116.
* **C144** (partial) Induction over the program; the streams there were before a block are not reached from its body. False of programs that close a fetched stream (C144_closing_refuted): the flush in the finally part raises and the streams of before are never put back. Streams are buffers; flushing an open one does nothing to its text.
* **C145** (proved) Inversion of the reads; derived values as in C142; the files shipped by computation, and their run by C122 and C141. All parameters are read at once; in the code an error comes where a value is first used. A value used as a size that is negative or has a fraction is refused at once. Weights of the antenna, the choice of looks and other failures are left open as in C122 and C141.
* **C146** (partial) Cutting the text at line breaks gives the lines back (`cut_join`); a section ends at its first empty line (`first_blank`). The claim in the notes of the text is false of the code (C146_silent_refuted). The file system is any function from paths to listings and sizes; paths are joined as in FigModel.
* **C147** (proved) Radians is increasing, so both tests are equal; the lists by filtering; the last record by the maximum of the indices inside. Positions are exact. L1ADataset overrides this iteration, so no run uses it; the difference to it is the defect of C33.

## Trusted base

* Coq 8.16.1's kernel, and `coqc` loading the standard library.
* The correspondence between `/repo` and the model definitions: read off by
  hand, recorded in the comment of each definition.
* Axioms: only those of the standard library.  `Print Assumptions` is run for
  every theorem in the `*Props.v` files; the result is listed below.
  `vcheck` also reports the library axioms that are merely loaded
  (`Coq.Reals.Rdefinitions.*Impl`, `Coq.ssr.ssrunder.Under_rel.*`: opaque
  definitions of library module types); no theorem depends on them as axioms.

* Closed under the global context: the other 510 statements.
* `ClassicalDedekindReals.sig_forall_dec`: C129_curve, C129_drawn, C129_session_partial, C129_started_refuted, C129_cross, C129_waveform, C129_example, C86_example, C19_ex_boxcar, C19_ex_odd.
* `ClassicalDedekindReals.sig_forall_dec`, `FunctionalExtensionality.functional_extensionality_dep`: C111_shipped_inconsistent, C129_marker_partial, C129_marker_refuted, C63_normalize, C63_needs_positive, C63_example, C97_products, C97_empty, C97_others, C99_limits_partial, C99_hist, C99_all_shown, C99_swapped_refuted, C100_figure_partial, C101_delta, C101_swap, C101_same, C101_delta_axis, C101_axis_refuted, C87_survives_partial, C87_capacity, C87_look_refuted, C87_padding_refuted, C87_example, C89_gps, C89_example, C140_round, C140_mask, C140_limits, C140_window, C140_sample, C140_counts, C110_monotone_partial, C110_turning_refuted, C110_example.
* `ClassicalDedekindReals.sig_forall_dec`, `ClassicalDedekindReals.sig_not_dec`, `FunctionalExtensionality.functional_extensionality_dep`: C71_exact, C71_approximate, C71_ex, C71_ex_approx, C72_agree_at_nadir_partial, C72_ex, C72_short_list_refuted, C71_energy, C147_test, C147_all, C147_versus, C147_empty, C147_example, C93_window, C93_total, C93_empty, C93_example, C94_relative_partial, C94_half_refuted, C94_scale, C94_max_refuted, C94_example, C95_bell_partial, C95_sign_refuted, C95_failed_refuted, C95_example, C96_moments, C96_amplitude, C96_single, C96_example, C29_ones_neutral, C29_ex_neutral, C29_divides_spectrum, C29_ex_divides, C69_energy, C69_samples, C69_ex, C30_switched_off, C30_distance, C30_reference_independent, C30_total_shift, C30_ex, C73_phase_only, C73_integer_shift, C73_ex, C74_area, C74_area_ex, C64_surface, C64_normal, C64_symmetry, C64_example, C81_example, C97_example, C98_proportional_partial, C98_inverted_refuted, C98_zero_refuted, C98_example, C99_zero_refuted, C99_example, C100_data_refuted, C100_example, C101_example, C145_drawn, C145_aimed, C145_agree, C145_needed, C145_shipped, C145_example, C119_superposition, C120_tracking, C120_order, C120_example, C90_copied, C90_pointing_unused, C90_attitude_refuted, C90_example, C91_delay_refuted, C91_example, C115_look, C115_peak, C115_focus, C115_mean, C115_same, C115_off_beam, C115_ambiguity, C115_example, C121_records, C121_image, C86_accepts, C86_filled, C86_written_example, C88_units_partial, C88_attitude_refuted, C88_surface_type_refuted, C88_beam_refuted, C88_example, C82_beneath, C82_example, C68_closest_partial, C68_at_target_refuted, C68_example, C19_size_and_support, C19_boxcar_ones, C19_disabled_identity, C19_hamming_shape_refuted, C19_hanning_shape_refuted, C19_width_one_refuted, C19_shapes_exchanged_partial, C19_symmetric_partial, C19_ex_too_wide.
* `ClassicalDedekindReals.sig_forall_dec`, `ClassicalDedekindReals.sig_not_dec`, `Classical_Prop.classic`, `FunctionalExtensionality.functional_extensionality_dep`: C111_latitude, C111_altitude, C111_too_far_north, C111_satellite, C111_ground, C111_example, C95_std_refuted, C138_surfaces, C138_sight, C138_output, C138_ends, C138_example, C137_example, C128_times, C128_clock, C128_shift, C128_example, C70_cal1, C70_neutral, C70_ex, C84_defined, C84_visible, C84_complete, C84_example, C85_doppler, C85_nadir_look_partial, C85_nadir_look_refuted, C85_example, C141_file, C141_stated, C141_copied, C141_waveform, C141_bright, C141_circle, C141_example, C139_delivered, C139_chunk, C139_region, C139_short, C139_larger, C139_no_table, C139_circle, C139_example, C139_short_example, C74_mean, C74_empty, C74_gain, C74_radar_equation, C74_ex, C65_north_partial, C65_south, C65_south_refuted, C65_example, C81_round_trip_partial, C81_longitude, C81_equator, C81_symmetric, C66_angle, C66_scale, C66_special, C66_example, C125_axis, C125_centre, C125_longitude, C125_located, C125_equator, C125_bound, C125_shipped, C125_near_refuted, C125_example, C145_ends, C145_shipped_run, C137_surfaces, C137_stack, C137_output, C137_seen, C137_ends, C119_amplified, C119_gain, C119_phase, C119_example, C132_products, C132_common, C132_geometry, C123_waves_partial, C123_laid_partial, C123_circle, C123_file_partial, C123_file_example, C91_delay_partial, C92_power, C92_example, C121_convert_partial, C121_surfaces_partial, C121_result_partial, C121_angles, C121_axis_refuted, C121_example, C67_weight, C67_resolution, C67_waiting, C67_after_first, C67_times, C67_example, C67_late, C67_times_example, C82_window_delay, C68_only, C68_once, C68_kept, C68_moved_example, C140_entry, C140_looks, C140_target, C140_ring, C140_louder, C140_example, C122_instance, C122_ends, C122_parallel, C122_stack, C122_looks, C122_products, C122_calibrations, C122_twice, C123_moved_partial, C124_echoes, C124_louder, C124_phase, C122_example, C123_example, C124_example, C122_gap_example.

## Not modelled

* IEEE-754 rounding, NaN/inf propagation (division by zero is an outcome).
* numpy/scipy/netCDF4 internals: FFT is its mathematical definition where it is
  used; `curve_fit` is not modelled; NetCDF files are tables.
* plotting, bokeh/matplotlib views, Jupyter process management, web server I/O,
  logging, time stamps.
* operating system: the file system is a finite tree; permissions, symbolic
  links, concurrent processes are not modelled.
