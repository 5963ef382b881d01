# Formal model of hardware-tools in Rocq

The model covers the Python package `hardware_tools` at the pinned commit in /repo: the line and mask
geometry, statistics, images, string formatting, the instrument drivers (SCPI parsing, settings, triggers,
acquisition, waveform transfer, WFM files, autoscale), clock recovery and the complete two-level eye diagram
from construction to results. `properties.jsonl` lists the properties in English, `MANIFEST.json` the
theorems proved for each, `seeded/LOG.jsonl` the wrong programs the theorems were tried against.
A row of the log names the proofs that no longer check after the edit and the theorems that rest on them. A proof
that fails may fail because its script no longer fits, so a row shows that the edit was noticed, not that each
theorem named became false; usually only the part of the development that the edited area needs was rebuilt.

## Approach
* Models (`*Model.v`) are total Gallina functions following each Python function branch by branch; Python
  exceptions are values of a `result` type; loops are structural recursion or fuelled, with the absence of
  fuel exhaustion proved.
* Numbers: where only comparisons and data flow matter the model is polymorphic in a record of arithmetic
  operations (`Num`), so the theorem covers IEEE-754 doubles including NaN. Where algebra is needed the
  model is instantiated with the real numbers `R` (float rounding is then **not** modelled), and
  counterexamples are computed with exact rationals `Q` or bit-exact binary64 (`SpecFloat`).
* External code (instrument, numpy RNG, FFT, sklearn, scipy, sleep) is a quantified parameter of the theorem.
* Specifications (`*Spec.v`) do not use the model's helpers: they say in terms of lists, texts, logs and
  numbers what the user gets. Theorems (`*Props.v`, named `Cnn_...`) relate a model function to them.
* A theorem named `..._refuted` shows that a behaviour a user would expect does **not** hold, by a witness.
* Beside each theorem an `Example` shows a concrete case meeting its hypotheses.

## Trusted base
* The kernel of Coq 8.16.1 (with its `vm_compute` reduction), and the compiler producing the `.vo` files.
* That the Gallina models say what the Python (and Cython) code does. Nothing was run: the models were
  written by reading /repo. Each definition cites file and lines and names its simplifications.
* That the `*Spec.v` definitions and the statements in `*Props.v` express the English properties.
* The axioms of Coq's standard library named in the section *Assumptions* below, introduced by the real
  numbers, functional extensionality and classical logic. No axioms of our own, no `Admitted`, no
  functors, no disabled checks, no plugins beyond those shipped with Coq (`lia`, `lra`, `nra`, `field`).

What is assumed about the surroundings, always as a hypothesis or a parameter of the theorem:

| surroundings | how they appear |
|---|---|
| instrument behind VISA | `IOModel.device`: five arbitrary functions; promises such as `stores`, `acquires`, `sends_waveforms` only where a theorem says so |
| numpy random generators | arbitrary functions returning lists, bounded where the theorem says so |
| Fourier transforms, scipy `curve_fit`, `erfc`/`erfcinv`, sklearn mixtures | arbitrary functions, with the laws used stated as hypotheses; a fit is taken to be a function of its input (sklearn's random start is not) |
| sorting, `np.percentile`, `np.unique` | a sorting function (`CdrSpec.sorts`), an arbitrary percentile, an executable sort |
| conversion float to int, float modulo | parameters satisfying the Python definition (`int_of_float`, `float_mod`), instantiated for R |
| `re`, `str`, `float()`, `int()`, format specs | executable models in PyStr.v/EquipModel.v for the forms the code uses |

## What is modelled
| file in /repo/hardware_tools | modelled in | not modelled |
|---|---|---|
| math/_lines_fb.py, math/_lines.pyx | DrawModel, LinesModel, LinesCyModel | int32 wrap-around except in C01_compiled_terminates_refuted |
| math/lines.py | LinesGeomModel | text forms of points |
| math/stats.py | StatsModel, MathModel (bin_exponential), ReportModel (format) | |
| math/gaussian.py, math/interpolation.py, signal/clock.py | MathModel | the numerics of the fits |
| math/image.py | ImageModel, ReportModel (files) | PNG compression (a pair of functions inverse to each other) |
| strformat.py | StrformatModel | |
| measurement/mask.py | MaskModel, MaskDictModel | |
| measurement/eyediagram/cdr.py, _cdr_fb.py, _cdr.pyx | CdrModel | debug figures |
| measurement/eyediagram/_eyediagram_fb.py, _eyediagram.pyx | EyeModel | |
| measurement/eyediagram/eyediagram.py | EyeModel, EyeRunModel, EyeImageModel, ReportModel, ConfigModel | figures, text of JSON documents, progress output |
| measurement/eyediagram/_pam2_fb.py, _pam2.pyx | Pam2Model | |
| measurement/eyediagram/pam2.py | Pam2Model, EyeRunModel | figures |
| equipment/equipment.py, equipment/utility.py | IOModel, EquipModel, ScpiModel, SessionModel | get_available (a list from VISA) |
| equipment/scope.py | ScopeUseModel, AutoModel, ScopeAutoModel, ScopeModel (data classes of triggers) | text forms of objects |
| equipment/tektronix/common.py | TekModel, WfmModel | |
| equipment/tektronix/family_mso4000.py, family_mso456.py | ScopeModel, ScopeUseModel, ScopeAutoModel | the value kept as max_bandwidth (its query is) |

Time: sleeping and timeouts are counted in polls; clock time is not modelled. The
code starts no threads and no processes.

## Findings
Behaviour of the code that a user would not expect, found while modelling; theorem names where machine-checked.
* SCPI: the repair of split quotes damages replies in which NR_PT follows an unquoted value; a payload
  containing ";:CURVE " makes parse_waveform_query reject the reply.
* Dither alters clipped codes when the granularity is coarse; an all-zero record gets full-word noise.
* Trigger comparisons LESSEQUAL and MOREEQUAL are sent as LESSTHAN and MORETHAN and never read back.
* WFM files: the length fields are not protected by the checksum (C29_length_field_refuted); samples are
  read from the start of the curve buffer, ignoring the precharge offset (C30_precharge_offset_refuted);
  unequal pre- and postcharge raises; the time axis is allocated before the length is checked.
* `inverted` and `_aux` are always True, since bool() of a non-empty text is True (C34_inverted_always_true).
* A rejected trigger has already changed the trigger type (C33_atomic_refuted).
* A label containing a quote starts another command (C34_label_single_command_refuted).
* sample_mode_n of the 4/5/6 series ignores ENVELOPE; AC coupling is sent as LFREJ.
* `single` in AVERAGE or ENVELOPE mode always times out, waiting for a count of 1 (C59_average_refuted); its
  last wait ignores the timeout given.
* A failed waveform read leaves headers on, so that later numeric reads raise (C60_headers_left_on_refuted);
  so does a failed channel discovery. A rejected identity leaves the resource open until the object is deleted.
* autoscale raises TimeoutError even if its 10th attempt is good, does not restore the record length on
  failure, and never converges for constant signals or signals a sixth of the screen off (C26).
* Clock recovery: empty edges raise IndexError before the intended ValueError; the score adds a slope in
  seconds to a count; the compiled search uses steps of 1/9 instead of 1/19; nan if all edges fall in one symbol.
* Masks and lines: points at the origin raise (C10_origin_raises_refuted), short segments lose precision
  (C10_small_segments_refuted); the compiled rasteriser may not terminate near the int limit
  (C01_compiled_terminates_refuted).
* Gaussians of zero deviation ignore their amplitude; the fine grid of GaussianMix.center omits the best
  coarse point; bin_exponential's density of constant data is nan.
* Eye diagrams: a failed clock recovery leaves a partial clock list so that every retry fails; clock edges
  are never recomputed; debug_plots with given clock edges raises TypeError (C46_debug_given) and changes the low SNR decision
  for two manual levels, and with it the clock (C78_debug_refuted); the configured CDR is created once and stored in the user's configuration; the clock
  waveform is thresholded at the levels of the data (C80_own_levels_refuted); a failed recalculation leaves stale results readable;
  skip_measures makes get_bit_stream raise TypeError; edge levels of 1.5 raise IndexError; a manual level 0
  with automatic level 1 moves the top of the eye; strided level sampling may reject a clean signal
  (C57_stride_refuted); samples below the image are counted in its bottom row (C50_outside_sample_refuted);
  once a mask was used, calculating with skip_measures raises TypeError (C62_stale_mask_refuted).
* The edge detector treats a record that starts between the thresholds as high, so that an inverted record can
  have one edge more (C81_edges_refuted); a glitch between equal bits counts as two edges (C73_glitch_refuted).
* The sample period of the first record is used for all, so that exchanging records of different durations
  changes what is reported (C70_durations_refuted).
* Config accepts `consume` as a setting, not the documented `time_hight`; clock_edges beyond the first entry
  are not type-checked.
* save_json empties the file before the document is known to be writable: with allow_nan=False every calculation
  without a mask loses the previous file (C63_failed_save_keeps_file_refuted); pretty_print raises ValueError
  on an empty dictionary (C63_print_empty_refuted).
* Mask dictionaries keep neither zero_ref nor the kind of units, so unconverted masks counted from the centre
  or in real units cannot be rebuilt (C64_centre_reference_refuted, C64_real_units_refuted).
## Plan per property
* **C01 Line drawing terminates and draws a connected chain from start to end** - DrawModel.v: Bresenham loop over Z with fuel, DrawProofs.v: closed form invariant of the error term; termination = fuel max(dx,dy)+1 is enough.
* **C02 Drawing only increments visited in-grid cells** - DrawModel.v: grid as function on a rectangle; theorem: grid change at a cell = number of visits.
* **C03 Level crossing search is exact** - LinesModel.v generic over the number type; structural part for any arithmetic, interpolation bounds over R.
* **C04 Edge detector hysteresis** - LinesModel.v edges as state machine; alternation etc. by induction for any arithmetic.
* **C05 Edge timestamps are finite and ordered** - edges over R with ordered thresholds; invariant on last opposite sample. In doubles the order can fail by a rounding step (refuted by a computed record).
* **C06 Segment intersection is sound and complete** - intersection over R: iff-characterisation with explicit segment parameters.
* **C07 Mask hit search loses nothing** - hits over R vs the brute-force pairwise specification.
* **C08 is_hitting agrees with hits** - hits vs is_hitting for any arithmetic.
* **C09 Compiled and fallback line helpers agree** - separate Gallina model of the Cython loops; equality for any arithmetic; buffers as lists with checked writes; single precision threshold rounding as a parameter.
* **C10 Orientation-based segment test** - orientation over R (norm positive), zero tolerance; intersecting iff common point.
* **C11 Exact histogram is a partition** - StatsModel.v bin_exact over a decidable total order.
* **C12 Linear histogram covers the data** - StatsModel.v bin_linear, np.histogram contract written out over R/Q.
* **C13 Downsampling never exceeds its budget** - downsample over exact rationals; floor-sum bound.
* **C14 Uncertain value arithmetic** - UncertainValue over R (sqrt).
* **C15 Alpha compositing algebra** - layer_rgba per pixel over R, unspecified colour as a parameter.
* **C16 Metric prefix keeps the value and bounds the width** - StrformatModel.v with executable decimal formatting of rationals.
* **C17 Time strings decode to the duration** - time_str with executable decimal formatting.
* **C18 Driver dispatch** - EquipModel.v: matcher for the two patterns, driver table as ordered list; open/close trace.
* **C19 SCPI splitting respects quotes** - ScpiModel.v: parse_scpi over Coq strings; quote-parity lemma.
* **C20 SCPI flat reply round trip** - print/parse round trip by induction.
* **C21 SCPI nested and flat results agree** - nested tree vs flat map; refutation witness for prefix conflicts.
* **C22 SCPI keyword matching** - key_match compiled to a matcher; iff with short/long language.
* **C23 Polling protocol of ask_and_wait** - EquipModel.v trace model of ask_and_wait, reply stream oracle; refutation for last poll.
* **C24 Equipment lifecycle** - EquipModel.v lifecycle state machine, induction over operations.
* **C25 Channel autoscale postcondition** - AutoModel.v: autoscale over arbitrary operations of the instrument (any `io` programs, any failures); the outcomes are characterised by induction over the attempts.
* **C26 Autoscale converges on an ideal channel** - AutoSpec.v: ideal clipping channel over R; the control law is reduced to a map on (lowest, highest) in screen heights, whose orbits are followed by induction.
* **C27 Waveform reply decoding** - TekModel.v parse_waveform_query on bytes as Z in 0..255; encode/decode round trip.
* **C28 Dither noise is bounded by the code granularity** - TekModel.v: dither bound over R for any noise in [-1/2,1/2).
* **C29 WFM file integrity** - WfmModel.v byte-level parser; checksum argument.
* **C30 WFM file decoding** - WfmModel.v writer/parser round trip; refutation.
* **C31 Enumerated reply parsing** - TekModel.v string prefix dispatch tables.
* **C32 Numeric settings survive the wire format** - PyStr.v executable .6E formatting over Q and parser; error bound.
* **C33 Trigger set/get round trip** - ScopeModel.v against an arbitrary instrument that stores settings (ScopeSpec.stores); histories by induction, registers by disjointness of keys.
* **C34 Channel settings set/get round trip** - as C33, all scalar properties of channels, time base and sample mode.
* **C35 Mask unit conversion** - MaskModel.v with tagged numbers.
* **C36 Mask adjustment law** - MaskModel.v over R; containment of convex polygons.
* **C37 Mask margin search** - EyeModel.v sample_mask, abstract hit relation; search invariant.
* **C38 Symbol windows never leave the record** - EyeModel.v centre computation; window bounds.
* **C39 Symbol alignment** - EyeModel.v over R.
* **C40 Vertical sampling bookkeeping** - Pam2Model.v sample_vertical.
* **C41 Bit stream recovery** - Pam2Model.v get_bit_stream.
* **C42 Tie unwrapping and period refinement** - CdrModel.v detrend_ties and detrend_ties_c over R; the unwrapping walk equals numbering by nearest symbols, the slope is shown to be the unique least squares minimiser.
* **C43 Period search stays in range** - CdrModel.v minimize by recursion over the rounds, any sort (CdrSpec.sorts); score equals the number of jumps (CdrSpec.disjoints) plus a bounded slope term.
* **C44 Recovered clock** - CdrModel.v run; postcondition CdrSpec.clock_of, all errors, and exact recovery for ideal data.
* **C45 TIE filter gain** - CdrModel.v gain over R; run_filtered with the Fourier transform pair as an arbitrary function.
* **C46 Eye diagram life cycle** - EyeRunModel.v the whole object as a state monad whose changes survive exceptions; invariant over arbitrary call histories; clock recovery, mixtures and percentile as quantified parameters.
* **C47 Configuration consumption** - ConfigModel.v attribute lookup through class and instance, consume as a fold over the ordered keywords.
* **C48 Pixel mapping of guide lines** - EyeModel.v over R with truncation.
* **C49 Bathtub curves** - EyeModel.v bathtub generator.
* **C50 Heat map conservation** - EyeModel.v stack on grids; normalisation.
* **C51 Sinc interpolation reproduces samples** - MathModel.v sinc over R with sin and PI; samples, curve, linearity, time axis, rejections.
* **C52 Gaussian curves, mixtures and fits** - MathModel.v over R with exp; infinities as values; sklearn, curve_fit, erfc as quantified parameters.
* **C53 Clock edge generator** - MathModel.v edges with random draws as oracles; composed with the recovery of CdrModel.v.
* **C54 Derived eye measures are consistent** - Pam2Model.v measure_y, measure_t over R.
* **C55 Horizontal edge sampling** - Pam2Model.v sample_horizontal and its compiled form; lists as exact filters of the window samples.
* **C56 Exponential bins** - MathModel.v bin_exponential with log10 of 0 as -inf; counts against a counting specification by decades.
* **C57 Levels, thresholds and clock of an eye** - EyeRunModel.v find_levels, selected_edges, fallback_clock, symbol_period with sklearn as a parameter; unit laws of bins, mixtures and centres composed; refutations for strided sampling and gaps.
* **C58 Results of a completed eye diagram** - everything calculate returns, traced back from the object to the symbols of the reported clock edges (EyeReportSpec.v); composed from C38-C42, C49, C50, C54, C55; a worked case shows the hypotheses are met.
* **C59 Acquisition control** - ScopeModel.v stop/run/single and ScopeUseModel.v force in the IO monad; dialogues against a step language (ScopeUseSpec.v carried_out), outcome on any instrument satisfying `acquires`; refutation for averaged acquisitions.
* **C60 Reading a waveform** - ScopeUseModel.v read_waveform composed with C27; dialogue for any instrument, result for instruments satisfying `sends_waveforms`; a failing transfer refutes that headers are restored.
* **C61 Opening a scope and its channels** - ScopeUseModel.v new_scope, ch, d; the log of a successful construction, channel discovery against printed replies of C21.
* **C62 Images of an eye diagram** - EyeImageModel.v draw_images and its parts inside calculate (EyeRunModel.v); pixels of every image of a completed calculation against EyeImageSpec.v (peak, on_grid, in_areas, circled, on_trace); C62_finishes gives masked calculations that complete; refutation for a mask kept while measures are skipped.
* **C63 Saved and printed results** - ReportModel.v: encoder, to_dict, save_json, save_images, pretty_print on values with nested containers; encoder against the relation `represents` by induction on nesting, documents of measures against the record `stores`, stacks against alpha compositing; connected to completed calculations (C58, C62).
* **C64 Masks as dictionaries** - MaskDictModel.v to_dict; outlines of masks made from dictionaries; refutations for masks counted from the centre and in real units.
* **C65 Autoscaling a channel of a scope** - ScopeAutoModel.v composes C25 with the commands, acquisitions and transfers of the scopes; conversation by an invariant on the log, placement by carrying counters of acquisitions through the attempts, convergence by error bounds over R for stored settings and codes; a simulated scope meets all hypotheses (ScopeBenchProps.v).
* **C66 A session with a scope** - SessionModel.v composes the probe, the choice of driver, the constructors and the with statement; bodies are an inductive class of programs (SessionSpec.v) that contains every modelled function of a scope; induction over programs shows events in good order, composed along the session.
* **C67 An eye diagram recovers the data sent** - EyeDataSpec.v says when a record carries bits; from C58 every decision is the mean of samples that all show the bit, the clock edges used are a slice because the gap between edges exceeds the uncertain margin at the ends of a record, and the bits reported follow by C41; completion follows from C58_finishes. EyeClockProps.v: without a clock the edges lie between samples on both sides of the threshold (C03, C04), so near symbol boundaries; C44_clock says the errors of the edges against the recovered clock have no jumps and zero mean, which fixes its phase. EyeClockExample.v is the concrete case.
* **C68 The units of the values do not matter to an eye diagram** - EyeUnitsSpec.v says what an object, its arguments and its results are in another unit; every step of calculate commutes with that change (edges, decisions, statistics, normalised waveforms), shown function by function, and so does any history, by induction over its calls. The level step is C57_units.
* **C69 The unit and origin of time do not matter to an eye diagram** - EyeTimeSpec.v says what an object, its arguments and its results are in another time; as for C68 every step of calculate commutes with the change and any history by induction. An origin moved by whole sample periods keeps the remainder of a clock edge to the sample grid. CdrTimeProofs.v: clock recovery uses edges relative to the first one; two edges 1.4 periods apart show that the period search depends on the unit.
* **C70 The order of the records does not matter to an eye diagram** - EyeOrderSpec.v says what the same records in another order are and which results may differ. EyeOrderProofs.v: a mapped step commutes with the order (mapM_pick), and a sum, mean, minimum, sorted list, histogram or count over all records is invariant under permutation. The failing direction uses the inverse order. EyeDurationProps.v: records of different durations, for which it fails.
* **C71 An open eye is decided correctly without configured levels** - EyeOpenSpec.v says what range, represented samples and an averaging fit are. The halves of the samples bound the means of their fits, the centre of a mixture lies between its means up to a thousandth (grid search), so levels and threshold are bounded by the range; after binning by pigeonhole: 2 % of the samples in fewer than 200 bins put enough into one bin for it to survive. Composed with C67.
* **C72 The clock recovered from data with jitter does not drift** - CdrJitterSpec.v says what jittered edges are. Every candidate period of the search that is far off has a larger score (C44 machinery); the final period is the slope of a least squares line through the edges, whose error is bounded by Cauchy-Schwarz with the spread of the symbol numbers (n(n^2-1)/12 at least), so it times the duration stays below a constant times the jitter. Composed with C67 and C71: EyeTrackProps.v assumes nothing of the recovered clock any more; completion by giving the recovered clock as an argument (given_clock). LinesRational.v computes edges of rational records for the example.
* **C73 Each change of the data gives exactly one edge** - EyeEdgesSpec.v says what clean data is (samples near the middles show the bit, no way back between two symbols) and lists the changes of a record. From the hysteresis characterisation of edges (C04): every sample but the first is either near the same middle as the one before (no edge) or in the transition to one symbol; in a transition between equal bits there is no edge, between different bits exactly one, by the first sample beyond the new threshold; its time lies after the last sample near the old middle (C03), which orders the edges. Composed with C72 and C71: completion and reported bits from hypotheses on the data alone. EyeGlitchProps.v shows that the condition between equal bits is needed: one sample off gives two more edges.
* **C74 An open eye is measured as open** - EyeWideSpec.v says what an opening is, which masks fit in, and what the bounds on the reported measures are. Every point of a drawn line within the opening is between two samples of the same side (line_clear), so it cannot be at a level, at a crossing of the bathtub or on a mask outline that lies in the opening; the measures are then statistics of times that all lie near the boundary (C58 gives which times). Margins: every step of the search for the margin at which the mask does not hit keeps the result at least there. Composed with C62 for completion with a mask and with C73 for automatic levels and recovered clock.
* **C75 Joining samples by lines affects only the picture** - two runs of the whole calculation whose configurations differ in point_cloud; by inversion of the steps, with C50_lines for the end of the drawing. Corollaries restate the theorems on data and open eyes for the default setting.
* **C76 An eye diagram without measures** - as C75, for two runs that differ in skip_measures, and for a second run of the object that a first run has left; inversion of the steps. That the second run raises with a mask is proved for every such object.
* **C77 The resolution affects only the images** - as C75, for two runs that differ in the resolution. The mask paths and margins that the first run could draw do not depend on the resolution, and drawing them is total (paths_spec, hits_spec, offenders_spec).
* **C78 Debug plots and the results** - as C75, for two runs with and without debug plots. The levels of the two runs agree in all but the noise check; the clock depends on that only if it is recovered. The finding is a theorem on a concrete record for every fit of the levels.
* **C79 A mask affects only the results of the mask** - the run with a mask, inverted, gives the run without (C79_without); two masks are compared through the run without (C79_masks).
* **C80 Clock waveforms are read at the threshold of the data** - induction over the edge detector's loop with C03 (every edge it lists is a crossing of the middle threshold), composed with the steps of the calculation; without a crossing there is no period and the calculation cannot complete.
* **C81 An inverted signal gives the inverted data** - edges: induction over the detector's loop with rising and falling exchanged, the crossing search being the same on both sides of a threshold that no sample is at. Symbols: C40 for both records, decisions related mean by mean. Eye diagrams: induction over the records, then over the edge directions for the bits; for sent bits, C67's lemma on the values seen around a clock edge.
* **C82 Records do not affect each other** - three completed calculations, of some records, of others, and of all of them: sampling is a function of each record (Forall2 determinism), merging the samples of all records is joining lists and adding counts, and the mean of joined lists lies between the means. Mask: the loop over the records started from another state adds the count and takes the minimum of the margins (masks_from).

## Assumptions
What `Print Assumptions` lists for each theorem of the manifest (each `*Props.v` prints it during the build).
Four axioms occur, all of Coq's standard library:
* D - `ClassicalDedekindReals.sig_forall_dec` (real numbers)
* N - `ClassicalDedekindReals.sig_not_dec` (real numbers)
* F - `FunctionalExtensionality.functional_extensionality_dep` (real numbers)
* C - `Classical_Prop.classic` (used by the standard library's real analysis)

**none - closed under the global context** (147): C01_draw_polyline, C01_segment_exact_steps, C01_draw_too_short, C01_compiled_segment_same, C01_compiled_terminates_refuted, C02_draw, C02_draw_points, C03_crossing_outside, C04_edges_hysteresis, C04_edges_alternate, C04_edges_counts, C05_all_times_finite_refuted, C05_order_in_doubles_refuted, C07_hits_unordered_refuted, C08_is_hitting_iff_hits, C09_crossing_same, C09_edges_same, C09_edges_np_same, C09_hits_same, C09_hits_same_doubles, C09_double_thresholds_refuted, C09_empty_path_refuted, C11_bin_exact, C12_empty, C13_floor_doubles_refuted, C15_shape_errors, C15_uninitialised_colour_refuted, C16_text_decodes, C16_constant_width, C16_wide_refuted, C16_no_prefixes, C17_whole_seconds, C17_centiseconds, C17_sixty_seconds_refuted, C17_elapsed_clock, C18_connect, C18_lookup, C18_install, C18_install_rejects, C18_builtin, C18_family, C18_converse_refuted, C19_cut_outside_quotes, C19_commands, C19_quoted_value, C20_flat_round_trip, C20_flat_untyped, C20_accepted, C20_trailing_colon_refuted, C20_below_callable_refuted, C21_same_errors, C21_nested_exact, C21_agree, C21_conflict_refuted, C22_match, C22_long_and_short, C22_no_other_abbreviation, C22_numbered, C23_ask_and_wait, C23_last_poll_wasted, C24_closed_once, C24_closes, C24_use_after_close, C24_not_message_based, C27_decode, C27_raw, C27_truncated, C27_mark_in_payload, C27_entries, C27_unquoted_before_points_refuted, C29_checked, C29_format, C29_single_byte, C29_truncated, C29_length_field_refuted, C30_decode, C30_unequal_charge, C30_precharge_offset_refuted, C31_comparison, C31_polarity, C31_sample_mode, C31_inclusive_refuted, C31_threshold, C32_relative_error, C32_seven_digits_exact, C32_zero, C32_eight_digits_refuted, C33_trigger_round_trip, C33_unknown_source, C33_unusable, C33_atomic_refuted, C34_reads_last_assigned, C34_only_own_settings, C34_label_cut, C34_sample_count, C34_inverted_always_true, C34_inverted_round_trip_refuted, C34_label_single_command_refuted, C34_sample_rate_4000, C34_sample_rate_zero, C34_sample_rate_456, C35_paths_need_conversion, C37_margin_search, C38_windows_inside, C38_reads_inside, C38_compiled_agrees, C41_bit_stream, C41_toggle_stream, C41_last_edge, C41_errors, C47_applied, C47_unknown, C47_accepted_iff, C47_construction, C47_only_settings_refuted, C47_defaults, C54_all_waveforms, C54_all_times, C59_stop, C59_run, C59_single, C59_force, C59_stopped, C59_started, C59_one_waveform, C59_average_refuted, C60_conversation, C60_waveform, C60_headers_left_on_refuted, C61_channels, C61_open_4000, C61_open_456, C61_rejected, C63_encoder, C63_encoder_errors, C63_readable, C63_dict, C63_save_no_images, C63_print_empty_refuted, C63_format, C64_remakes, C64_paths, C65_conversation, C66_functions, C66_connected, C66_session, C73_listed

**D F** (107): C03_crossing_backward, C03_crossing_forward, C04_edges_total, C05_edge_times_between, C05_edge_times_increasing, C05_edge_times_nondecreasing, C06_intersection_iff, C06_line2d_intersection_iff, C06_shared_point_found_refuted, C07_hits_iff, C07_hits_in_order, C12_bin_linear, C12_range_exact, C12_density, C13_small_unchanged, C13_exact_bins, C13_linear_bins, C13_empty_raises_refuted, C14_comparisons, C15_layer_is_over, C15_range, C15_opaque_and_transparent, C15_transparent_colour_irrelevant, C15_associative, C15_to_uint8, C25_outcomes, C25_record_length_kept_refuted, C26_succeeds, C26_one_correction, C26_attempts_needed, C26_always_succeeds_refuted, C28_bounded, C28_scaled, C28_coarse_clipped_refuted, C28_zero_record_refuted, C28_file, C35_hexagon_as_drawn, C35_decagon_as_drawn, C35_idempotent_zero_ref, C35_idempotent_refuted, C35_zero_unit, C35_adjust_forgets_units_refuted, C36_zero_is_identity, C36_minus_one, C36_plus_one, C36_hexagon_grows, C36_decagon_grows, C36_far_limits_grow_refuted, C36_degenerate_raises, C36_structure_kept, C37_touching, C37_eye_margin, C38_compiled_stack_agrees, C39_aligned, C39_window_time, C39_window_width, C40_vertical, C40_compiled_agrees, C42_refine, C42_jitter, C42_exact, C42_same, C43_disjoints_definite, C44_rejects, C44_no_period, C44_fixed_exact, C44_recovers, C45_preserved, C45_extremes, C46_construct, C48_guide_pixels, C49_bathtub, C49_curves, C50_point_cloud, C50_lines, C50_pixel, C54_levels, C55_horizontal, C55_crossing_times, C57_clock_edges, C57_clock_found, C57_fixed_rate, C63_save_json, C63_save_images, C63_topmost, C63_invisible, C63_print, C64_converted, C64_plain, C64_centre_reference_refuted, C64_real_units_refuted, C65_placed, C65_converges, C68_construct, C68_default, C68_percentile, C69_construct, C69_default, C69_recovery, C69_recovery_refuted, C70_percentile, C72_recovers, C73_smooth, C74_records, C81_edges, C81_symbols, C81_edges_refuted

**D N F** (39): C14_add_sub, C14_number_operands, C14_mul_div, C14_stddev_nonneg, C14_samples, C14_samples_laws, C45_gain, C51_samples, C51_linear, C51_time_axis, C51_rejects, C52_impulse, C52_center_single, C52_center, C52_sample_error, C52_fit_pdf, C52_fit_units, C52_fit, C53_edges, C53_ordered, C53_rejects, C53_recovered, C54_horizontal, C54_edges, C57_thresholds, C57_manual, C57_exact, C57_binned, C57_constant, C57_stride_refuted, C57_low_snr, C57_period, C57_gap_counts_refuted, C70_levels, C71_levels_short, C71_spike_refuted, C73_quiet, C81_levels, C82_period

**D C F** (7): C43_outcome, C43_arguments, C44_clock, C44_errors, C72_clock, C73_edges, C73_glitch_refuted

**D N C F** (92): C10_orientation_sign, C10_orientation_antisymmetric, C10_intersecting_iff, C10_origin_raises_refuted, C10_small_segments_refuted, C14_logarithms, C40_levels_ordered, C46_history, C46_last, C46_repeat, C46_reuse, C46_clock_kept, C46_failed_clock, C46_debug_given, C46_returns, C51_curve, C52_gaussian, C52_mixture, C52_center_impulse, C52_peak_between, C54_vertical, C54_vertical_undefined, C54_optical, C56_counts, C56_edges, C56_density, C56_rejects, C57_units, C58_symbols, C58_decisions, C58_transitions, C58_levels, C58_mask, C58_heatmap, C58_finishes, C58_times, C62_clean, C62_grid, C62_no_mask, C62_mask, C62_hits, C62_no_hits, C62_stale_mask_refuted, C62_finishes, C63_calculated, C63_failed_save_keeps_file_refuted, C63_calculated_print, C63_calculated_images, C67_recovered, C67_data, C67_calculated, C68_units, C69_time, C69_moved, C70_durations_refuted, C70_order, C70_records, C71_threshold, C71_found, C71_data, C71_recovered, C71_calculated, C72_signal, C72_calculated, C72_open, C73_calculated, C73_thresholds, C73_open, C74_crossings, C74_bathtub, C74_mask, C74_edges, C74_completes, C74_open, C75_calculated, C75_open, C75_only_picture, C76_skips, C76_again, C76_again_refuted, C77_resolution, C78_debug, C78_fixed_rate, C78_debug_refuted, C79_without, C79_masks, C80_threshold, C80_own_levels_refuted, C81_data, C81_open, C82_records, C82_mask

