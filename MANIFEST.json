{
 "claims": [
  {
   "property": "C01",
   "status": "proved",
   "theorems": [
    "C01_draw_polyline",
    "C01_segment_exact_steps",
    "C01_draw_too_short",
    "C01_compiled_segment_same",
    "C01_compiled_terminates_refuted"
   ],
   "note": "DrawModel.v: Bresenham loop over Z with fuel, DrawProofs.v: closed form invariant of the error term; termination = fuel max(dx,dy)+1 is enough."
  },
  {
   "property": "C02",
   "status": "proved",
   "theorems": [
    "C02_draw",
    "C02_draw_points"
   ],
   "note": "DrawModel.v: grid as function on a rectangle; theorem: grid change at a cell = number of visits."
  },
  {
   "property": "C03",
   "status": "proved",
   "theorems": [
    "C03_crossing_backward",
    "C03_crossing_forward",
    "C03_crossing_outside"
   ],
   "note": "LinesModel.v generic over the number type; structural part for any arithmetic, interpolation bounds over R."
  },
  {
   "property": "C04",
   "status": "proved",
   "theorems": [
    "C04_edges_hysteresis",
    "C04_edges_alternate",
    "C04_edges_counts",
    "C04_edges_total"
   ],
   "note": "LinesModel.v edges as state machine; alternation etc. by induction for any arithmetic."
  },
  {
   "property": "C05",
   "status": "proved",
   "theorems": [
    "C05_edge_times_between",
    "C05_edge_times_increasing",
    "C05_edge_times_nondecreasing",
    "C05_all_times_finite_refuted",
    "C05_order_in_doubles_refuted"
   ],
   "note": "Edges over R with ordered thresholds; invariant on last opposite sample. C05_order_in_doubles_refuted: the order is a fact about exact arithmetic; in doubles with equal thresholds a fall found before a rise can be timed after it."
  },
  {
   "property": "C06",
   "status": "proved",
   "theorems": [
    "C06_intersection_iff",
    "C06_line2d_intersection_iff",
    "C06_shared_point_found_refuted"
   ],
   "note": "Intersection over R: iff-characterisation with explicit segment parameters."
  },
  {
   "property": "C07",
   "status": "proved",
   "theorems": [
    "C07_hits_iff",
    "C07_hits_in_order",
    "C07_hits_unordered_refuted"
   ],
   "note": "Hits over R vs the brute-force pairwise specification."
  },
  {
   "property": "C08",
   "status": "proved",
   "theorems": [
    "C08_is_hitting_iff_hits"
   ],
   "note": "Hits vs is_hitting for any arithmetic."
  },
  {
   "property": "C09",
   "status": "proved",
   "theorems": [
    "C09_crossing_same",
    "C09_edges_same",
    "C09_edges_np_same",
    "C09_hits_same",
    "C09_hits_same_doubles",
    "C09_double_thresholds_refuted",
    "C09_empty_path_refuted"
   ],
   "note": "Separate Gallina model of the Cython loops; equality for any arithmetic; buffers as lists with checked writes; single precision threshold rounding as a parameter."
  },
  {
   "property": "C10",
   "status": "proved",
   "theorems": [
    "C10_orientation_sign",
    "C10_orientation_antisymmetric",
    "C10_intersecting_iff",
    "C10_origin_raises_refuted",
    "C10_small_segments_refuted"
   ],
   "note": "Orientation over R (norm positive), zero tolerance; intersecting iff common point."
  },
  {
   "property": "C11",
   "status": "proved",
   "theorems": [
    "C11_bin_exact"
   ],
   "note": "StatsModel.v bin_exact over a decidable total order."
  },
  {
   "property": "C12",
   "status": "proved",
   "theorems": [
    "C12_bin_linear",
    "C12_range_exact",
    "C12_density",
    "C12_empty"
   ],
   "note": "StatsModel.v bin_linear, np.histogram contract written out over R/Q."
  },
  {
   "property": "C13",
   "status": "proved",
   "theorems": [
    "C13_small_unchanged",
    "C13_exact_bins",
    "C13_linear_bins",
    "C13_floor_doubles_refuted",
    "C13_empty_raises_refuted"
   ],
   "note": "Downsample over exact rationals; floor-sum bound."
  },
  {
   "property": "C14",
   "status": "proved",
   "theorems": [
    "C14_add_sub",
    "C14_number_operands",
    "C14_mul_div",
    "C14_stddev_nonneg",
    "C14_comparisons",
    "C14_samples",
    "C14_samples_laws",
    "C14_logarithms"
   ],
   "note": "UncertainValue over R (sqrt)."
  },
  {
   "property": "C15",
   "status": "proved",
   "theorems": [
    "C15_layer_is_over",
    "C15_range",
    "C15_opaque_and_transparent",
    "C15_transparent_colour_irrelevant",
    "C15_associative",
    "C15_shape_errors",
    "C15_uninitialised_colour_refuted",
    "C15_to_uint8"
   ],
   "note": "Layer_rgba per pixel over R, unspecified colour as a parameter."
  },
  {
   "property": "C16",
   "status": "proved",
   "theorems": [
    "C16_text_decodes",
    "C16_constant_width",
    "C16_wide_refuted",
    "C16_no_prefixes"
   ],
   "note": "StrformatModel.v with executable decimal formatting of rationals."
  },
  {
   "property": "C17",
   "status": "proved",
   "theorems": [
    "C17_whole_seconds",
    "C17_centiseconds",
    "C17_sixty_seconds_refuted",
    "C17_elapsed_clock"
   ],
   "note": "Time_str with executable decimal formatting."
  },
  {
   "property": "C18",
   "status": "proved",
   "theorems": [
    "C18_connect",
    "C18_lookup",
    "C18_install",
    "C18_install_rejects",
    "C18_builtin",
    "C18_family",
    "C18_converse_refuted"
   ],
   "note": "EquipModel.v: matcher for the two patterns, driver table as ordered list; open/close trace."
  },
  {
   "property": "C19",
   "status": "proved",
   "theorems": [
    "C19_cut_outside_quotes",
    "C19_commands",
    "C19_quoted_value"
   ],
   "note": "ScpiModel.v: parse_scpi over Coq strings; quote-parity lemma."
  },
  {
   "property": "C20",
   "status": "proved",
   "theorems": [
    "C20_flat_round_trip",
    "C20_flat_untyped",
    "C20_accepted",
    "C20_trailing_colon_refuted",
    "C20_below_callable_refuted"
   ],
   "note": "Print/parse round trip by induction."
  },
  {
   "property": "C21",
   "status": "proved",
   "theorems": [
    "C21_same_errors",
    "C21_nested_exact",
    "C21_agree",
    "C21_conflict_refuted"
   ],
   "note": "Nested tree vs flat map; refutation witness for prefix conflicts."
  },
  {
   "property": "C22",
   "status": "proved",
   "theorems": [
    "C22_match",
    "C22_long_and_short",
    "C22_no_other_abbreviation",
    "C22_numbered"
   ],
   "note": "Key_match compiled to a matcher; iff with short/long language."
  },
  {
   "property": "C23",
   "status": "proved",
   "theorems": [
    "C23_ask_and_wait",
    "C23_last_poll_wasted"
   ],
   "note": "EquipModel.v trace model of ask_and_wait, reply stream oracle; refutation for last poll."
  },
  {
   "property": "C24",
   "status": "proved",
   "theorems": [
    "C24_closed_once",
    "C24_closes",
    "C24_use_after_close",
    "C24_not_message_based"
   ],
   "note": "EquipModel.v lifecycle state machine, induction over operations."
  },
  {
   "property": "C25",
   "status": "proved",
   "theorems": [
    "C25_outcomes",
    "C25_record_length_kept_refuted"
   ],
   "note": "AutoModel.v: autoscale over arbitrary operations of the instrument (any `io` programs, any failures); the outcomes are characterised by induction over the attempts."
  },
  {
   "property": "C26",
   "status": "proved",
   "theorems": [
    "C26_succeeds",
    "C26_one_correction",
    "C26_attempts_needed",
    "C26_always_succeeds_refuted"
   ],
   "note": "AutoSpec.v: ideal clipping channel over R; the control law is reduced to a map on (lowest, highest) in screen heights, whose orbits are followed by induction."
  },
  {
   "property": "C27",
   "status": "proved",
   "theorems": [
    "C27_decode",
    "C27_raw",
    "C27_truncated",
    "C27_mark_in_payload",
    "C27_entries",
    "C27_unquoted_before_points_refuted"
   ],
   "note": "TekModel.v parse_waveform_query on bytes as Z in 0..255; encode/decode round trip."
  },
  {
   "property": "C28",
   "status": "proved",
   "theorems": [
    "C28_bounded",
    "C28_scaled",
    "C28_coarse_clipped_refuted",
    "C28_zero_record_refuted",
    "C28_file"
   ],
   "note": "TekModel.v: dither bound over R for any noise in [-1/2,1/2)."
  },
  {
   "property": "C29",
   "status": "proved",
   "theorems": [
    "C29_checked",
    "C29_format",
    "C29_single_byte",
    "C29_truncated",
    "C29_length_field_refuted"
   ],
   "note": "WfmModel.v byte-level parser; checksum argument."
  },
  {
   "property": "C30",
   "status": "proved",
   "theorems": [
    "C30_decode",
    "C30_unequal_charge",
    "C30_precharge_offset_refuted"
   ],
   "note": "WfmModel.v writer/parser round trip; refutation."
  },
  {
   "property": "C31",
   "status": "proved",
   "theorems": [
    "C31_comparison",
    "C31_polarity",
    "C31_sample_mode",
    "C31_inclusive_refuted",
    "C31_threshold"
   ],
   "note": "TekModel.v string prefix dispatch tables."
  },
  {
   "property": "C32",
   "status": "proved",
   "theorems": [
    "C32_relative_error",
    "C32_seven_digits_exact",
    "C32_zero",
    "C32_eight_digits_refuted"
   ],
   "note": "PyStr.v executable .6E formatting over Q and parser; error bound."
  },
  {
   "property": "C33",
   "status": "proved",
   "theorems": [
    "C33_trigger_round_trip",
    "C33_unknown_source",
    "C33_unusable",
    "C33_atomic_refuted"
   ],
   "note": "ScopeModel.v against an arbitrary instrument that stores settings (ScopeSpec.stores); histories by induction, registers by disjointness of keys."
  },
  {
   "property": "C34",
   "status": "proved",
   "theorems": [
    "C34_reads_last_assigned",
    "C34_only_own_settings",
    "C34_label_cut",
    "C34_sample_count",
    "C34_inverted_always_true",
    "C34_inverted_round_trip_refuted",
    "C34_label_single_command_refuted",
    "C34_sample_rate_4000",
    "C34_sample_rate_zero",
    "C34_sample_rate_456"
   ],
   "note": "As C33, all scalar properties of channels, time base and sample mode."
  },
  {
   "property": "C35",
   "status": "proved",
   "theorems": [
    "C35_paths_need_conversion",
    "C35_hexagon_as_drawn",
    "C35_decagon_as_drawn",
    "C35_idempotent_zero_ref",
    "C35_idempotent_refuted",
    "C35_zero_unit",
    "C35_adjust_forgets_units_refuted"
   ],
   "note": "MaskModel.v with tagged numbers."
  },
  {
   "property": "C36",
   "status": "proved",
   "theorems": [
    "C36_zero_is_identity",
    "C36_minus_one",
    "C36_plus_one",
    "C36_hexagon_grows",
    "C36_decagon_grows",
    "C36_far_limits_grow_refuted",
    "C36_degenerate_raises",
    "C36_structure_kept"
   ],
   "note": "MaskModel.v over R; containment of convex polygons."
  },
  {
   "property": "C37",
   "status": "proved",
   "theorems": [
    "C37_margin_search",
    "C37_touching",
    "C37_eye_margin"
   ],
   "note": "EyeModel.v sample_mask, abstract hit relation; search invariant."
  },
  {
   "property": "C38",
   "status": "proved",
   "theorems": [
    "C38_windows_inside",
    "C38_reads_inside",
    "C38_compiled_agrees",
    "C38_compiled_stack_agrees"
   ],
   "note": "EyeModel.v centre computation; window bounds."
  },
  {
   "property": "C39",
   "status": "proved",
   "theorems": [
    "C39_aligned",
    "C39_window_time",
    "C39_window_width"
   ],
   "note": "EyeModel.v over R."
  },
  {
   "property": "C40",
   "status": "proved",
   "theorems": [
    "C40_vertical",
    "C40_compiled_agrees",
    "C40_levels_ordered"
   ],
   "note": "Pam2Model.v sample_vertical."
  },
  {
   "property": "C41",
   "status": "proved",
   "theorems": [
    "C41_bit_stream",
    "C41_toggle_stream",
    "C41_last_edge",
    "C41_errors"
   ],
   "note": "Pam2Model.v get_bit_stream."
  },
  {
   "property": "C42",
   "status": "proved",
   "theorems": [
    "C42_refine",
    "C42_jitter",
    "C42_exact",
    "C42_same"
   ],
   "note": "CdrModel.v detrend_ties and detrend_ties_c over R; the unwrapping walk equals numbering by nearest symbols, the slope is shown to be the unique least squares minimiser."
  },
  {
   "property": "C43",
   "status": "proved",
   "theorems": [
    "C43_outcome",
    "C43_arguments",
    "C43_disjoints_definite"
   ],
   "note": "CdrModel.v minimize by recursion over the rounds, any sort (CdrSpec.sorts); score equals the number of jumps (CdrSpec.disjoints) plus a bounded slope term."
  },
  {
   "property": "C44",
   "status": "proved",
   "theorems": [
    "C44_clock",
    "C44_errors",
    "C44_rejects",
    "C44_no_period",
    "C44_fixed_exact",
    "C44_recovers"
   ],
   "note": "CdrModel.v run; postcondition CdrSpec.clock_of, all errors, and exact recovery for ideal data."
  },
  {
   "property": "C45",
   "status": "proved",
   "theorems": [
    "C45_gain",
    "C45_preserved",
    "C45_extremes"
   ],
   "note": "CdrModel.v gain over R; run_filtered with the Fourier transform pair as an arbitrary function."
  },
  {
   "property": "C46",
   "status": "proved",
   "theorems": [
    "C46_construct",
    "C46_history",
    "C46_last",
    "C46_repeat",
    "C46_reuse",
    "C46_clock_kept",
    "C46_failed_clock",
    "C46_debug_given",
    "C46_returns"
   ],
   "note": "EyeRunModel.v the whole object as a state monad whose changes survive exceptions; invariant over arbitrary call histories; clock recovery, mixtures and percentile as quantified parameters."
  },
  {
   "property": "C47",
   "status": "proved",
   "theorems": [
    "C47_applied",
    "C47_unknown",
    "C47_accepted_iff",
    "C47_construction",
    "C47_only_settings_refuted",
    "C47_defaults"
   ],
   "note": "ConfigModel.v attribute lookup through class and instance, consume as a fold over the ordered keywords."
  },
  {
   "property": "C48",
   "status": "proved",
   "theorems": [
    "C48_guide_pixels"
   ],
   "note": "EyeModel.v over R with truncation."
  },
  {
   "property": "C49",
   "status": "proved",
   "theorems": [
    "C49_bathtub",
    "C49_curves"
   ],
   "note": "EyeModel.v bathtub generator."
  },
  {
   "property": "C50",
   "status": "proved",
   "theorems": [
    "C50_point_cloud",
    "C50_lines",
    "C50_pixel"
   ],
   "note": "EyeModel.v stack on grids; normalisation."
  },
  {
   "property": "C51",
   "status": "proved",
   "theorems": [
    "C51_samples",
    "C51_curve",
    "C51_linear",
    "C51_time_axis",
    "C51_rejects"
   ],
   "note": "MathModel.v sinc over R with sin and PI; samples, curve, linearity, time axis, rejections."
  },
  {
   "property": "C52",
   "status": "proved",
   "theorems": [
    "C52_gaussian",
    "C52_impulse",
    "C52_mixture",
    "C52_center_single",
    "C52_center",
    "C52_center_impulse",
    "C52_peak_between",
    "C52_sample_error",
    "C52_fit_pdf",
    "C52_fit_units",
    "C52_fit"
   ],
   "note": "MathModel.v over R with exp; infinities as values; sklearn, curve_fit, erfc as quantified parameters."
  },
  {
   "property": "C53",
   "status": "proved",
   "theorems": [
    "C53_edges",
    "C53_ordered",
    "C53_rejects",
    "C53_recovered"
   ],
   "note": "MathModel.v edges with random draws as oracles; composed with the recovery of CdrModel.v."
  },
  {
   "property": "C54",
   "status": "proved",
   "theorems": [
    "C54_vertical",
    "C54_vertical_undefined",
    "C54_horizontal",
    "C54_optical",
    "C54_edges",
    "C54_all_waveforms",
    "C54_all_times",
    "C54_levels"
   ],
   "note": "Pam2Model.v measure_y, measure_t over R."
  },
  {
   "property": "C55",
   "status": "proved",
   "theorems": [
    "C55_horizontal",
    "C55_crossing_times"
   ],
   "note": "Pam2Model.v sample_horizontal and its compiled form; lists as exact filters of the window samples."
  },
  {
   "property": "C56",
   "status": "proved",
   "theorems": [
    "C56_counts",
    "C56_edges",
    "C56_density",
    "C56_rejects"
   ],
   "note": "MathModel.v bin_exponential with log10 of 0 as -inf; counts against a counting specification by decades."
  },
  {
   "property": "C57",
   "status": "proved",
   "theorems": [
    "C57_thresholds",
    "C57_manual",
    "C57_exact",
    "C57_binned",
    "C57_constant",
    "C57_stride_refuted",
    "C57_units",
    "C57_low_snr",
    "C57_clock_edges",
    "C57_clock_found",
    "C57_fixed_rate",
    "C57_period",
    "C57_gap_counts_refuted"
   ],
   "note": "Refuted parts: strided sampling beyond ten times the limit (C57_stride_refuted) and gaps among few edges (C57_gap_counts_refuted)."
  },
  {
   "property": "C58",
   "status": "proved",
   "theorems": [
    "C58_symbols",
    "C58_decisions",
    "C58_transitions",
    "C58_levels",
    "C58_mask",
    "C58_heatmap",
    "C58_finishes",
    "C58_times"
   ],
   "note": "Over the reals; records of a whole object. Levels of nan (no samples at a level) and figures are not followed. C58_finishes is for given clock edges, no mask and a point cloud; polylines need enough rasteriser steps (fuel)."
  },
  {
   "property": "C59",
   "status": "proved",
   "theorems": [
    "C59_stop",
    "C59_run",
    "C59_single",
    "C59_force",
    "C59_stopped",
    "C59_started",
    "C59_one_waveform",
    "C59_average_refuted"
   ],
   "note": "Timeouts count polls; clock time is not modelled. The instrument is a parameter."
  },
  {
   "property": "C60",
   "status": "proved",
   "theorems": [
    "C60_conversation",
    "C60_waveform",
    "C60_headers_left_on_refuted"
   ],
   "note": "Dialogue for any instrument; the decoded waveform for an instrument satisfying sends_waveforms, without added noise."
  },
  {
   "property": "C61",
   "status": "proved",
   "theorems": [
    "C61_channels",
    "C61_open_4000",
    "C61_open_456",
    "C61_rejected"
   ],
   "note": "max_bandwidth and the repr of channels are not followed. int() of a non-ASCII digit in a channel name is not modelled."
  },
  {
   "property": "C62",
   "status": "proved",
   "theorems": [
    "C62_clean",
    "C62_grid",
    "C62_no_mask",
    "C62_mask",
    "C62_hits",
    "C62_no_hits",
    "C62_stale_mask_refuted",
    "C62_finishes"
   ],
   "note": "Over the reals. The colour map, polygon, circle and antialiased line of the drawing libraries are parameters; weights of a line are assumed in [0,1] where used. Symbols listed as bad meet the outline; that all symbols meeting it are listed needs nested masks (C37). Exact uint8/float32 rounding and files are not modelled. C62_stale_mask_refuted: recalculating without measures after a mask."
  },
  {
   "property": "C63",
   "status": "proved",
   "theorems": [
    "C63_encoder",
    "C63_encoder_errors",
    "C63_readable",
    "C63_dict",
    "C63_save_json",
    "C63_save_images",
    "C63_save_no_images",
    "C63_topmost",
    "C63_invisible",
    "C63_print",
    "C63_print_empty_refuted",
    "C63_format",
    "C63_calculated",
    "C63_failed_save_keeps_file_refuted",
    "C63_calculated_print",
    "C63_calculated_images"
   ],
   "note": "Numbers are real or nan or infinite; the text of numbers, JSON syntax, PNG and base64 encoding (taken to be ASCII) and number formatting are parameters or trees. Opening and writing files is taken to succeed. The stacked images assume channel opacities in [0,1], which C63_calculated_images establishes for completed calculations given a colour map and line weights in range. Refutations: C63_failed_save_keeps_file_refuted, C63_print_empty_refuted."
  },
  {
   "property": "C64",
   "status": "proved",
   "theorems": [
    "C64_remakes",
    "C64_converted",
    "C64_plain",
    "C64_centre_reference_refuted",
    "C64_real_units_refuted",
    "C64_paths"
   ],
   "note": "Over the reals. Reconstruction is the constructor call with the numbers read back as plain floats and the default zero_ref. Refutations: C64_centre_reference_refuted (every such mask), C64_real_units_refuted."
  },
  {
   "property": "C65",
   "status": "proved",
   "theorems": [
    "C65_conversation",
    "C65_placed",
    "C65_converges"
   ],
   "note": "autoscale composed from the commands of both families.  Numbers are exact rationals except for the rounding of read numbers and the seven digits of sent numbers; float rounding inside the correction itself is not modelled."
  },
  {
   "property": "C66",
   "status": "proved",
   "theorems": [
    "C66_functions",
    "C66_connected",
    "C66_session"
   ],
   "note": "Without installed drivers. An object is taken to be released as soon as its constructor failed or the with statement is over (CPython); a resource that is not message based is left open (C24_not_message_based), so the theorem asks for message based ones."
  },
  {
   "property": "C67",
   "status": "proved",
   "theorems": [
    "C67_recovered",
    "C67_data",
    "C67_calculated"
   ],
   "note": "Over exact reals. The threshold is the one the levels step finds or is given; that it separates the bands is a hypothesis (C57 says when levels are found). Completion is for point clouds (C75_calculated: also with lines); a mask, if there is one, must be convertible for the amplitude and period seen. For a recovered clock the low and high bands must last long enough that crossings are within a quarter symbol of the boundaries."
  },
  {
   "property": "C68",
   "status": "proved",
   "theorems": [
    "C68_construct",
    "C68_units",
    "C68_default",
    "C68_percentile"
   ],
   "note": "Over exact reals. numpy.percentile is assumed to be in the units of its values; C68_percentile shows this of its definition. The fit of the levels is sklearn on normalised samples (C52)."
  },
  {
   "property": "C69",
   "status": "proved",
   "theorems": [
    "C69_construct",
    "C69_time",
    "C69_default",
    "C69_recovery",
    "C69_recovery_refuted",
    "C69_moved"
   ],
   "note": "Over exact reals. C69_recovery_refuted shows that the search for the clock period depends on the unit: its score adds a time to a number of edges."
  },
  {
   "property": "C70",
   "status": "proved",
   "theorems": [
    "C70_durations_refuted",
    "C70_order",
    "C70_levels",
    "C70_records",
    "C70_percentile"
   ],
   "note": "Over exact reals. For a fresh object. Records that last different times are outside the claim: the sample period is taken from the first one. So is a level fit on a random subset of the samples (levels_n_max). C70_durations_refuted: two records with sample periods of one and two seconds, exchanged, are reported with fewer samples."
  },
  {
   "property": "C71",
   "status": "proved",
   "theorems": [
    "C71_levels_short",
    "C71_threshold",
    "C71_found",
    "C71_spike_refuted",
    "C71_data",
    "C71_recovered",
    "C71_calculated"
   ],
   "note": "Over exact reals. Assumed of the mixture fit (sklearn): as many components as asked for, each mean among the samples. Samples represented: see EyeOpenSpec.v. Refuted for outliers: C71_spike_refuted. For a recovered clock that the eye is not found too noisy is a hypothesis."
  },
  {
   "property": "C72",
   "status": "proved",
   "theorems": [
    "C72_clock",
    "C72_recovers",
    "C72_signal",
    "C72_calculated",
    "C72_open"
   ],
   "note": "Over exact reals, for a CDR whose period search is on and whose first guess is within 1 %. Edges found are more than half a period and at most 20 periods apart. C72_signal, C72_calculated and C72_open compose this with C67 and C71; that the edges found in each record are steady is a hypothesis here, and follows from the data in C73; that an open eye has a high enough signal to noise ratio too. Completion is for point clouds without a mask. Completion is shown without a mask and with one that can be converted and adjusted for all amplitudes and periods such a signal may have (usable_mask)."
  },
  {
   "property": "C73",
   "status": "proved",
   "theorems": [
    "C73_edges",
    "C73_listed",
    "C73_smooth",
    "C73_calculated",
    "C73_thresholds",
    "C73_quiet",
    "C73_open",
    "C73_glitch_refuted"
   ],
   "note": "Over exact reals. Enough samples: at least one near the middle of each symbol. Clean: near the middles the samples are beyond the threshold of their bit, and between two different bits none is beyond the old threshold after one beyond the new; C73_smooth gives this from monotone transitions for every choice of thresholds. C73_calculated and C73_open compose this with C71 and C72: no hypothesis is left on levels, edges, clock or run, except the signal to noise ratio, and C73_quiet gives that for up to levels_n_max samples in the outer sevenths of their range. Mixture fits put their means among the samples (assumed of the library). Completion is shown without a mask and with one that can be converted and adjusted for all amplitudes and periods such a signal may have (usable_mask). C73_glitch_refuted: without Clean there is a record with four edges for two changes."
  },
  {
   "property": "C74",
   "status": "proved",
   "theorems": [
    "C74_crossings",
    "C74_bathtub",
    "C74_mask",
    "C74_edges",
    "C74_completes",
    "C74_records",
    "C74_open"
   ],
   "note": "Over exact reals. C74_crossings, C74_bathtub, C74_mask and C74_edges speak of every completed calculation whose records show their bits (record_of, as in C67) in an opening of h symbols on each side of the middle after jitter, drift and half a sample are taken off. The level must be clear of both bands by half of the configured height. C74_completes gives completion with a mask and a given clock; C74_open composes all of it with C71, C72 and C73: nothing is assumed of levels, clock or edges. Measures that are not reported (no such edge) are not claimed to exist."
  },
  {
   "property": "C75",
   "status": "proved",
   "theorems": [
    "C75_calculated",
    "C75_open",
    "C75_only_picture"
   ],
   "note": "Over exact reals and unbounded pixel coordinates (the int32 range is C01_compiled_segment_same's matter). Fuel bounds the tests of the line drawing loop; enough of it exists for each eye diagram. C75_calculated and C75_open restate C67_calculated/C67_data and C74_open without the assumption of a point cloud."
  },
  {
   "property": "C76",
   "status": "proved",
   "theorems": [
    "C76_skips",
    "C76_again",
    "C76_again_refuted"
   ],
   "note": "Over exact reals. Fuel bounds the line drawing loop. C76_again_refuted: an object measured with a mask raises a TypeError when calculated again with skip_measures. Debug plots off for the second calculation."
  },
  {
   "property": "C77",
   "status": "proved",
   "theorems": [
    "C77_resolution"
   ],
   "note": "Over exact reals and unbounded pixel coordinates. Fuel bounds the line drawing loop; enough of it exists for each eye diagram. The edge levels are assumed to be drawable on the grid, and skimage's line_aa is a parameter assumed fair (EyeImageSpec.v). C77_met: a mask tested on a bit pattern completes at every positive resolution."
  },
  {
   "property": "C78",
   "status": "proved",
   "theorems": [
    "C78_debug",
    "C78_fixed_rate",
    "C78_debug_refuted"
   ],
   "note": "Over exact reals. Of the debug plots the model has only what decides their success (the ties must be there) and the level search they cause. C78_fixed_rate: for every noisy record with both levels configured and no clock given, debug plots report a fixed rate clock. C78_debug_refuted: a record for which the clock then differs, for every level fit that averages its samples (C78_fits: there is one)."
  },
  {
   "property": "C79",
   "status": "proved",
   "theorems": [
    "C79_without",
    "C79_masks"
   ],
   "note": "Over exact reals, for the same fuel of the line drawing loop. C79_met: a mask on a bit pattern, with and without."
  },
  {
   "property": "C80",
   "status": "proved",
   "theorems": [
    "C80_threshold",
    "C80_own_levels_refuted"
   ],
   "note": "Over exact reals. C80_own_levels_refuted is the finding, for every clock on one side of the threshold. C80_met and C80_own_levels_met: the same bits as data and clock, and with the clock at two fifths of the height."
  },
  {
   "property": "C81",
   "status": "proved",
   "theorems": [
    "C81_edges",
    "C81_symbols",
    "C81_data",
    "C81_open",
    "C81_levels",
    "C81_edges_refuted"
   ],
   "note": "Over exact reals. Both eye diagrams are assumed to complete with the same clock edges (given, for instance); C81_levels gives opposite thresholds for configured levels. Widths, times and images of the inverted eye are outside the claim. C81_edges_refuted is the finding. C81_met: the record of C67_met upside down, 0 1 0 1 instead of 1 0 1 0."
  },
  {
   "property": "C82",
   "status": "proved",
   "theorems": [
    "C82_period",
    "C82_records",
    "C82_mask"
   ],
   "note": "Over exact reals. The three calculations are assumed to complete with the same threshold, windows, sample period and symbol period; thresholds found from the samples of each part and periods averaged over each part generally differ, and then nothing is claimed. Levels are bounded, not given as weighted means; times and images are outside the claim. C82_met, C82_mask_met: the record of C67_met and its opposite, without and with a mask."
  }
 ]
}