{"id": "C01", "title": "Line drawing terminates and draws a connected chain from start to end", "statement": "lines.draw on a polyline of at least two points always terminates; between two consecutive vertices it visits exactly max(|dx|,|dy|) pixels before the next vertex, the first is the start vertex, consecutive pixels are 8-neighbours, every pixel lies in the bounding box of the two vertices and within half a pixel (along the minor axis) of the ideal line, and the last vertex of the polyline is visited exactly once at the end.", "quantifier": "all integer vertex lists of length >= 2 and all grid sizes", "why_tests_cant": "the set of endpoint pairs is unbounded; loops could diverge or skip the endpoint for some slope", "anchors": ["hardware_tools/math/_lines_fb.py:_draw_segment", "hardware_tools/math/_lines_fb.py:draw", "hardware_tools/math/_lines.pyx:_draw_segment_c", "hardware_tools/math/_lines.pyx:draw_c"]}
{"id": "C02", "title": "Drawing only increments visited in-grid cells", "statement": "After lines.draw / lines.draw_points every grid cell has been increased by exactly the number of times the drawn chain (respectively the point list) visits it, cells not visited are unchanged, the grid keeps its shape and pixels outside of the grid are ignored.", "quantifier": "all vertex lists, all grids of any shape", "why_tests_cant": "needs every combination of geometry and clipping window", "anchors": ["hardware_tools/math/_lines_fb.py:_draw_segment", "hardware_tools/math/_lines_fb.py:draw", "hardware_tools/math/_lines_fb.py:draw_points", "hardware_tools/math/_lines.pyx:draw_points_c"]}
{"id": "C03", "title": "Level crossing search is exact", "statement": "lines.crossing(axis_return, axis_search, i, value, step_forward) returns NaN exactly when no adjacent pair of samples from the start index towards the requested direction straddles the value; otherwise it returns the nearest straddling pair's index and the linear interpolation on that pair, which never divides by zero and lies between the two neighbouring axis_return samples.", "quantifier": "all sample lists, all start indices, both directions, all values", "why_tests_cant": "unbounded lists and start positions; interpolation formula needs all reals", "anchors": ["hardware_tools/math/_lines_fb.py:crossing", "hardware_tools/math/_lines.pyx:crossing_c"]}
{"id": "C04", "title": "Edge detector hysteresis", "statement": "lines.edges reports a rising edge only after the signal was below y_fall (or started below it) and then exceeds y_rise, a falling edge only after the signal was not low and drops below y_fall; rising and falling edges strictly alternate, so their counts differ by at most one, and a signal that never leaves the band [y_fall, y_rise] after an edge yields no further edge.", "quantifier": "all sample sequences and all thresholds, for any arithmetic including IEEE doubles with NaN", "why_tests_cant": "quantifies over every signal history", "anchors": ["hardware_tools/math/_lines_fb.py:edges", "hardware_tools/math/_lines_fb.py:edges_np", "hardware_tools/math/_lines.pyx:edges_c", "hardware_tools/math/_lines.pyx:edges_np_c"]}
{"id": "C05", "title": "Edge timestamps are finite and ordered", "statement": "In exact arithmetic, for y_fall <= y_half <= y_rise and nondecreasing t, every timestamp returned by lines.edges is a real number lying between the samples where the signal crosses y_half and the timestamps are in chronological order across both lists, with the sole exception that the very first falling edge is NaN when the record starts inside the band at or below y_half and drops below y_fall without exceeding y_half. (In double arithmetic the order can fail by a rounding step: a finding.)", "quantifier": "all signals, all ordered thresholds, all nondecreasing time axes", "why_tests_cant": "the exception is only reachable from particular initial samples; ordering needs an invariant over the whole history", "anchors": ["hardware_tools/math/_lines_fb.py:edges", "hardware_tools/math/_lines_fb.py:crossing"]}
{"id": "C06", "title": "Segment intersection is sound and complete", "statement": "lines.intersection returns a point iff the two segments (or infinite lines with segments=False) are not parallel and share a point; the point returned lies on both; parallel or collinear inputs return None.", "quantifier": "all eight real coordinates", "why_tests_cant": "continuous input space", "anchors": ["hardware_tools/math/_lines_fb.py:intersection", "hardware_tools/math/_lines.pyx:intersection_c", "hardware_tools/math/lines.py:Line2D.intersection_points"]}
{"id": "C07", "title": "Mask hit search loses nothing", "statement": "For a nondecreasing time axis lines.hits returns exactly the pairwise segment intersections of the polyline with every path, in order; the bounding-box shortcut never discards one; every hit lies on the polyline and on a path; for decreasing time steps hits can be lost.", "quantifier": "all polylines, all lists of nonempty paths", "why_tests_cant": "the prefilter must be right for every relative position", "anchors": ["hardware_tools/math/_lines_fb.py:hits", "hardware_tools/math/_lines_fb.py:hits_np", "hardware_tools/math/_lines.pyx:hits_c", "hardware_tools/math/_lines.pyx:hits_np_c"]}
{"id": "C08", "title": "is_hitting agrees with hits", "statement": "lines.is_hitting (and its numpy form) is true iff lines.hits returns a nonempty list, and when hits raises (empty path) is_hitting raises the same error or has already returned true.", "quantifier": "all inputs and any arithmetic, including IEEE doubles with NaN and unordered time", "why_tests_cant": "two separately coded loops must agree on every input", "anchors": ["hardware_tools/math/_lines_fb.py:hits", "hardware_tools/math/_lines_fb.py:is_hitting", "hardware_tools/math/_lines_fb.py:is_hitting_np", "hardware_tools/math/_lines.pyx:is_hitting_c"]}
{"id": "C09", "title": "Compiled and fallback line helpers agree", "statement": "The compiled implementations of crossing, edges, intersection, hits and is_hitting return what the pure Python fallbacks return when thresholds are representable in single precision; unchecked array writes in the compiled versions stay inside their buffers.", "quantifier": "all inputs, any arithmetic", "why_tests_cant": "two implementations; equality must hold on every input", "anchors": ["hardware_tools/math/_lines.pyx:crossing_c", "hardware_tools/math/_lines.pyx:edges_np_c", "hardware_tools/math/_lines.pyx:intersection_c", "hardware_tools/math/_lines.pyx:hits_np_c", "hardware_tools/math/_lines.pyx:is_hitting_c", "hardware_tools/math/_lines_fb.py"]}
{"id": "C10", "title": "Orientation-based segment test", "statement": "Point2D.orientation is antisymmetric under swapping its outer points and, ignoring the numeric tolerance, its sign is the sign of the cross product, so Line2D.intersecting is true iff the two closed segments share a point; a triple containing the origin raises ZeroDivisionError instead.", "quantifier": "all real points", "why_tests_cant": "continuous input space with degenerate collinear cases", "anchors": ["hardware_tools/math/lines.py:Point2D.orientation", "hardware_tools/math/lines.py:Point2D.in_rect", "hardware_tools/math/lines.py:Line2D.intersecting_points"]}
{"id": "C11", "title": "Exact histogram is a partition", "statement": "stats.bin_exact returns strictly increasing bins holding exactly the distinct values of y, each with its number of occurrences; counts are positive and sum to len(y).", "quantifier": "all sample lists", "why_tests_cant": "all lists", "anchors": ["hardware_tools/math/stats.py:bin_exact", "hardware_tools/math/stats.py:bin_exact_np"]}
{"id": "C12", "title": "Linear histogram covers the data", "statement": "stats.bin_linear on a nonempty list produces bin_count+1 nondecreasing edges with min(y) and max(y) inside them, and every sample is counted in exactly one bin, including the constant-signal special case where the range is widened.", "quantifier": "all nonempty sample lists and bin counts >= 1", "why_tests_cant": "all lists, degenerate ranges", "anchors": ["hardware_tools/math/stats.py:bin_linear"]}
{"id": "C13", "title": "Downsampling never exceeds its budget", "statement": "stats.downsample(y, n_max) returns y unchanged when len(y) <= n_max; otherwise returns at most n_max values, all of which occur in y (bin_count None), each value v occurring exactly floor(count(v)*n_max/len(y)) times.", "quantifier": "all sample lists and positive n_max", "why_tests_cant": "needs a floor-sum bound for every multiset", "anchors": ["hardware_tools/math/stats.py:downsample"]}
{"id": "C14", "title": "Uncertain value arithmetic", "statement": "UncertainValue +,- add variances and are commutative/associative in (value, stddev); scaling by k scales the stddev by |k|; * and / add relative variances; the stddev stays nonnegative for nonnegative operands and nonzero positive values; comparison operators depend only on value and are mutually consistent; samples() yields the mean (between min and max) and the population standard deviation (>= 0), NaN if empty.", "quantifier": "all real values and sample lists", "why_tests_cant": "algebraic laws over reals", "anchors": ["hardware_tools/math/stats.py:UncertainValue"]}
{"id": "C15", "title": "Alpha compositing algebra", "statement": "image.layer_rgba yields alpha in [0,1] and, wherever the result is not fully transparent, colours that are convex combinations of the inputs (so stay in [0,1]); an opaque top layer wins, a transparent top layer leaves the bottom unchanged, layering is associative, and the result never depends on the colour of fully transparent inputs; shape or channel mismatches raise ValueError. The colour of fully transparent results is unspecified (uninitialised memory).", "quantifier": "all image sizes and pixel values in [0,1]", "why_tests_cant": "all pixel combinations", "anchors": ["hardware_tools/math/image.py:layer_rgba"]}
{"id": "C16", "title": "Metric prefix keeps the value and bounds the width", "statement": "strformat.metric_prefix prints mantissa and prefix with mantissa*prefix = value, choosing the largest prefix whose threshold is met; with the defaults and -9.9e15 <= value <= 9.9e16 (or infinite or NaN) the result always has the same length (10 + len(unit)).", "quantifier": "all finite values and units", "why_tests_cant": "rounding at every prefix boundary", "anchors": ["hardware_tools/strformat.py:metric_prefix"]}
{"id": "C17", "title": "Time strings decode to the duration", "statement": "strformat.time_str(d, sub=False) prints fields that decode to floor(d), with minutes (when hours are shown) and seconds in 0..59; with sub=True the fields decode to d within 0.005 s, but the seconds field reads 60.00 exactly when the fractional seconds are >= 59.995.", "quantifier": "all durations", "why_tests_cant": "every duration; the rollover happens on a measure-small set", "anchors": ["hardware_tools/strformat.py:time_str"]}
{"id": "C18", "title": "Driver dispatch", "statement": "utility.connect asks the resource for *IDN?, closes it, and only then creates the driver of the first registered pattern that matches the answer; with an answer in hand it raises LookupError iff no pattern matches; if the probe fails no driver is created and the resource has been closed (or its failed closing is the exception). install_driver accepts only subclasses of Equipment, replaces a driver registered under the same pattern in place and otherwise appends. The two built-in Tektronix patterns never both match and match exactly the identities of their models; every model accepted by a family constructor is dispatched to that family, while a model dispatched to the MSO 4/5/6 family can be rejected by its constructor (ValueError).", "quantifier": "all identification strings, instruments, points of failure and registration sequences", "why_tests_cant": "all strings; every order of install_driver calls", "anchors": ["hardware_tools/equipment/utility.py:connect", "hardware_tools/equipment/utility.py:install_driver", "hardware_tools/equipment/tektronix/family_mso4000.py", "hardware_tools/equipment/tektronix/family_mso456.py"]}
{"id": "C19", "title": "SCPI splitting respects quotes", "statement": "utility.parse_scpi never splits inside a double-quoted value: for a reply made of any number of commands whose values have balanced quotes, it recovers exactly those commands, including values that contain semicolons inside quotes.", "quantifier": "all command lists with balanced quotes", "why_tests_cant": "arbitrary nesting of separators in quoted payloads", "anchors": ["hardware_tools/equipment/utility.py:parse_scpi"]}
{"id": "C20", "title": "SCPI flat reply round trip", "statement": "Printing any list of (absolute header, value) settings as a ;-joined reply, compressed or not with relative headers, and parsing it with parse_scpi(flat=True) gives a dictionary where each full upper-case header maps to its last value.", "quantifier": "all setting lists", "why_tests_cant": "all lists of headers/values", "anchors": ["hardware_tools/equipment/utility.py:parse_scpi"]}
{"id": "C21", "title": "SCPI nested and flat results agree", "statement": "For replies in which no header is both a value and a prefix of another header, parse_scpi nested and flat results hold the same values at corresponding paths; when a header is both, the nested form silently drops the value.", "quantifier": "all setting lists", "why_tests_cant": "all trees; the conflict occurs only for particular prefixes", "anchors": ["hardware_tools/equipment/utility.py:parse_scpi"]}
{"id": "C22", "title": "SCPI keyword matching", "statement": "parse_scpi's header matching maps the short form and the long form of a typed keyword to the same canonical key, accepts no other abbreviation, and expands <a-b> suffix ranges to exactly the integers a..b.", "quantifier": "all keywords and header strings", "why_tests_cant": "all strings", "anchors": ["hardware_tools/equipment/utility.py:parse_scpi", "hardware_tools/equipment/tektronix/common.py:TEK_TYPES"]}
{"id": "C23", "title": "Polling protocol of ask_and_wait", "statement": "Equipment.ask_and_wait sends the additional command before every query, sleeps between queries, issues at most int(timeout/interval)+2 queries, and returns only when the last reply is one of the wanted states; if it returns, exactly the replies before the last were unwanted; it raises TimeoutError otherwise - including when the wanted state arrives on the very last permitted poll.", "quantifier": "all reply streams, state lists and timeouts", "why_tests_cant": "all reply histories", "anchors": ["hardware_tools/equipment/equipment.py:Equipment.ask_and_wait"]}
{"id": "C24", "title": "Equipment lifecycle", "statement": "Over any sequence of commands, close / context exit / destructor calls an opened instrument resource is closed at most once, and exactly once if the sequence contains a closing call and closing does not fail; no I/O reaches it afterwards, every use raising AttributeError instead; only that resource is used. Construction on a resource that is not message based raises NotImplementedError and leaves the resource open for good.", "quantifier": "all instruments, failures and call sequences", "why_tests_cant": "all histories", "anchors": ["hardware_tools/equipment/equipment.py:Equipment"]}
{"id": "C25", "title": "Channel autoscale postcondition", "statement": "Whatever the instrument does, autoscaling a channel ends in one of these ways: it returns, and then the last of at most nine acquisitions was well placed and the original number of time points is restored; it raises TimeoutError after ten acquisitions - even if the tenth was well placed - with the number of points restored; an operation on the instrument fails and its exception is passed on with nothing done afterwards (so the record length stays altered); an acquisition is empty or has no usable limits.", "quantifier": "all instrument behaviours (any sequence of acquired extremes, any failure point)", "why_tests_cant": "instrument responses are an arbitrary history; crash points", "anchors": ["hardware_tools/equipment/scope.py:AnalogChannel.autoscale"]}
{"id": "C26", "title": "Autoscale converges on an ideal channel, and when it does not", "statement": "On an ideal clipping channel autoscale succeeds, leaving the signal well placed, for every signal inside the screen (at least 5e-9 of its height), every signal covering a tenth of the screen and at most 7.2 times as high, and every signal covering 1e-7 of the screen and at most 1.8 times as high; a signal inside the screen with at least 5% of its height needs only one correction. It never succeeds for constant signals and for signals more than a sixth of the screen outside.", "quantifier": "all signals (lists of real samples), scales, positions, numbers of divisions", "why_tests_cant": "real-valued control loop", "anchors": ["hardware_tools/equipment/scope.py:AnalogChannel.autoscale"]}
{"id": "C27", "title": "Waveform reply decoding", "statement": "parse_waveform_query recovers from a well-formed reply (long or short header, abbreviated or long names of the entries, 8 or 16 bit, signed or unsigned, either byte order) each transmitted sample code as (code - offset)*multiplier + zero with time axis zero + i*increment, sets the clipping flags iff some code reaches the limits, and reports units, increments and description as sent; in raw mode it returns the codes. A payload shorter than announced, or one containing the bytes ;:CURVE followed by a space, makes it raise ValueError. A reply in which the number of points does not follow a quoted value makes it raise KeyError although the waveform is complete.", "quantifier": "all sample arrays, formats, spellings and scale factors", "why_tests_cant": "all binary payloads", "anchors": ["hardware_tools/equipment/tektronix/common.py:parse_waveform_query"]}
{"id": "C28", "title": "Dither noise is bounded by the code granularity", "statement": "With add_noise the returned code differs from the transmitted one by at most half the power of two dividing all codes (all-zero data counts as divisible by the full word size) and stays within the clip limits; codes at the clip limits are unchanged when that power is one; time axis and clipping flags are those without noise; the same holds for frames read from files. With coarser granularity codes at the limits may be altered, and an all-zero record gets noise of half the word size.", "quantifier": "all payloads, files and noise draws", "why_tests_cant": "all payloads and random draws", "anchors": ["hardware_tools/equipment/tektronix/common.py:parse_waveform_query"]}
{"id": "C29", "title": "WFM file integrity", "statement": "parse_wfm_file only returns when the file starts with the marker 0F0F, is at least as long as its header says, its version, counts and formats are supported ones, and its checksum equals the sum of all preceding bytes. Changing any single byte of an accepted file, within the length its header says and other than those of the length fields, or cutting the file below the length its header says, makes it raise. A change of a length field can go unnoticed.", "quantifier": "all byte strings, and all single-byte changes and truncations of accepted ones", "why_tests_cant": "all corruptions of all files", "anchors": ["hardware_tools/equipment/tektronix/common.py:parse_wfm_file"]}
{"id": "C30", "title": "WFM file decoding", "statement": "Parsing a file produced from samples (any supported sample code, number of frames, equal pre- and post-charge) returns for each frame the samples scaled by the scale and offset of the file, in order, with time axis (i + trigger fraction of the frame)*scale + offset, counted from the trigger whether or not the charge samples are asked for, and the timestamps, units, clipping flags, limits and label of the file; files with different pre- and post-charge lengths make it raise. A file whose first charge sample does not start the curve buffer is read from the wrong place.", "quantifier": "all sample arrays, formats, frame counts and options", "why_tests_cant": "all files", "anchors": ["hardware_tools/equipment/tektronix/common.py:parse_wfm_file"]}
{"id": "C31", "title": "Enumerated reply parsing", "statement": "parse_polarity/parse_sample_mode/parse_comparison map each short or long form sent by the instrument to its enumerator, except that LESSEQUAL and MOREEQUAL are reported as LESS and MORE; unknown strings are returned unchanged or raise as documented.", "quantifier": "all reply strings", "why_tests_cant": "all strings, prefix shadowing", "anchors": ["hardware_tools/equipment/tektronix/common.py"]}
{"id": "C32", "title": "Numeric settings survive the wire format", "statement": "A setting sent in the .6E format and read back as float differs from the requested value by at most a relative 5e-7, and values with at most 7 significant digits survive exactly.", "quantifier": "all finite values", "why_tests_cant": "all values, rounding carries across decades", "anchors": ["hardware_tools/equipment/tektronix/family_mso4000.py", "hardware_tools/equipment/tektronix/family_mso456.py"]}
{"id": "C33", "title": "Trigger set/get round trip", "statement": "On an instrument that stores its settings (reporting words in any documented spelling and numbers in any notation), after any sequence of assignments the trigger reads back as the trigger last assigned: same kind, source, slope and coupling, numbers to seven significant digits, inclusive comparisons as exclusive ones, and on the 4/5/6 series level 0 for the line source. An unavailable source raises ValueError and changes at most the kind of trigger; every other unusable trigger raises ValueError, KeyError or TypeError and changes nothing outside the trigger settings. Rejection is not atomic.", "quantifier": "all histories of valid assignments, all triggers usable or not, all storing instruments, all prior instrument states, both scope families", "why_tests_cant": "all combinations and prior states", "anchors": ["hardware_tools/equipment/tektronix/family_mso4000.py", "hardware_tools/equipment/tektronix/family_mso456.py"]}
{"id": "C34", "title": "Channel settings set/get round trip", "statement": "On an instrument that stores its settings, after any sequence of valid assignments every channel setting (position, scale, bandwidth, deskew, offset, termination, probe gain, threshold, coupling, active, label), time base setting and sample mode reads back the value last assigned to it (numbers to seven significant digits), whatever else was assigned in between; an assignment changes no setting outside its own subsystem; labels are cut to 30 ASCII characters; sample counts read back in the averaging modes; a sample rate reads back on the 4/5/6 series and on the 4000 series makes ten divisions hold the record at that rate, a rate of zero being an error with nothing sent. The inverted getter however is always True, and a label with a quote can start another command.", "quantifier": "all histories of valid assignments, all channels, values, storing instruments and prior states, both scope families", "why_tests_cant": "all values and states", "anchors": ["hardware_tools/equipment/tektronix/family_mso4000.py", "hardware_tools/equipment/tektronix/family_mso456.py"]}
{"id": "C35", "title": "Mask unit conversion", "statement": "Mask paths raise ValueError until convert_mixed_units is applied; conversion divides exactly the RealUnits coordinates by t_sym (time) or amplitude; it is idempotent for zero_ref masks and not for others.", "quantifier": "all masks and scale factors", "why_tests_cant": "all coordinates and tag combinations", "anchors": ["hardware_tools/measurement/mask.py"]}
{"id": "C36", "title": "Mask adjustment law", "statement": "adjust(0) is the identity, adjust(-1) collapses the inner polygon to the eye centre and moves limits outward by half, adjust(1) makes the mask fill the eye; for well-formed masks larger factors give masks containing the smaller ones; the adjusted mask keeps its point symmetry, closedness and converted state.", "quantifier": "all well-formed masks and factors in [-1,1]", "why_tests_cant": "continuous parameters", "anchors": ["hardware_tools/measurement/mask.py"]}
{"id": "C37", "title": "Mask margin search", "statement": "The mask margin reported by an eye diagram is the largest margin on the tested grid that no symbol hits, and the offending symbols are exactly those hitting the unadjusted mask, whenever hitting is monotone in the margin; without monotonicity offenders can be missed.", "quantifier": "all waveforms, symbol lists and mask families", "why_tests_cant": "all orders of symbols; the search pointer is shared across symbols", "anchors": ["hardware_tools/measurement/eyediagram/_eyediagram_fb.py:sample_mask", "hardware_tools/measurement/eyediagram/_eyediagram.pyx:sample_mask_c"]}
{"id": "C38", "title": "Symbol windows never leave the record", "statement": "Every symbol kept by the eye diagram has its whole sampling window inside the waveform, so no sampling loop (including the compiled ones without bounds checks) reads outside of it; symbol order is preserved.", "quantifier": "all clock edges, record lengths, sample rates", "why_tests_cant": "memory safety for all inputs", "anchors": ["hardware_tools/measurement/eyediagram/eyediagram.py:EyeDiagram._step3_sample", "hardware_tools/measurement/eyediagram/_eyediagram_fb.py", "hardware_tools/measurement/eyediagram/_pam2_fb.py"]}
{"id": "C39", "title": "Symbol alignment", "statement": "For a record whose first sample time is a multiple of the sample period the chosen sample index and sub-sample offset reconstruct the clock edge exactly; otherwise the error is at most half of a sample period (and can be nonzero).", "quantifier": "all clock edges and sample periods", "why_tests_cant": "real-valued inputs", "anchors": ["hardware_tools/measurement/eyediagram/eyediagram.py:EyeDiagram._step3_sample"]}
{"id": "C40", "title": "Vertical sampling bookkeeping", "statement": "With decision windows narrower than one symbol, PAM2 vertical sampling classifies each symbol once: transition counts sum to the number of symbols, one edge direction is produced per symbol and agrees with the transition counts, the previous/current/next decision windows are never empty, and every level sample belongs to the level its symbol was decided to be; the compiled and fallback forms agree.", "quantifier": "all waveforms, symbol centres and window widths", "why_tests_cant": "all records", "anchors": ["hardware_tools/measurement/eyediagram/_pam2_fb.py:sample_vertical", "hardware_tools/measurement/eyediagram/_pam2.pyx:sample_vertical_c"]}
{"id": "C41", "title": "Bit stream recovery", "statement": "get_bit_stream in NRZ-L returns one bit per symbol equal to the decided symbol whenever each symbol's previous decision equals the preceding symbol's decision and at least one edge exists; in NRZ-M it marks the edges; a constant-high record decodes as zeros.", "quantifier": "all edge-direction sequences", "why_tests_cant": "all histories", "anchors": ["hardware_tools/measurement/eyediagram/pam2.py:PAM2.get_bit_stream"]}
{"id": "C42", "title": "Tie unwrapping and period refinement", "statement": "detrend_ties and its compiled version number the data edges by nearest symbols (the first edge is 0, and each number keeps the jump of the time interval error from the previous edge within half a period) and return the period that minimises the squared misfit of a straight line through the numbered edges; they fail exactly when all edges fall in the same symbol. For the edges of an ideal clock of period T with a guess under which no gap drifts by half a period, they return exactly T; for jittered edges the squared error of the period times the spread of the numbers is at most the total squared jitter. Both versions return the same.", "quantifier": "all edge lists, all positive guesses", "why_tests_cant": "all edge histories; algebra over reals", "anchors": ["hardware_tools/measurement/eyediagram/_cdr_fb.py:detrend_ties", "hardware_tools/measurement/eyediagram/_cdr.pyx:detrend_ties_c"]}
{"id": "C43", "title": "Period search stays in range", "statement": "minimize_tie_disjoints returns a period inside the given range at which fewer interval errors than the tolerance jump by more than half a period (none at all with the default tolerance), or raises ArithmeticError; only edges closer than half the longest period can make the score itself undefined. A guess t stands for the range 0.9 t to 1.1 t, and a missing range raises ValueError. It always terminates.", "quantifier": "all edge lists, ranges, tolerances, iteration limits, sorting algorithms; both versions", "why_tests_cant": "recursion over narrowing ranges for every input", "anchors": ["hardware_tools/measurement/eyediagram/_cdr_fb.py:minimize_tie_disjoints", "hardware_tools/measurement/eyediagram/_cdr.pyx:minimize_tie_disjoints_c"]}
{"id": "C44", "title": "Recovered clock", "statement": "CDR.run returns clock edges equally spaced by the recovered period, half a period after the mean phase of the data edges and covering the data, with the time interval errors either of all data edges in order or held at each clock edge; the mean error is zero. It raises for none or one edge, for a guess giving fewer than 0.9 or more than 5 symbols per edge, and when the search fails. For ideal data (runs up to 24 symbols, up to 90000 symbols) and a guess within 1 % it returns the exact clock with all errors zero.", "quantifier": "all edge lists, guesses, both versions, any sorting algorithm", "why_tests_cant": "all edge histories", "anchors": ["hardware_tools/measurement/eyediagram/cdr.py:CDR.run"]}
{"id": "C45", "title": "TIE filter gain", "statement": "The high-pass gain used by CDRWithFFTFilter is 0 at DC, lies in [0,1), strictly increases with |f|, is 1/sqrt(2) at the bandwidth. Filtering moves jitter between clock and errors: clock edge plus error is the same as without the filter for every clock edge, whatever the FFT returns; a gain of one leaves the clock alone, a gain of zero moves all errors into the clock; unresampled errors are those of the next clock edge at each data edge.", "quantifier": "all frequencies, corner frequencies and orders; all FFT results", "why_tests_cant": "continuous parameters", "anchors": ["hardware_tools/measurement/eyediagram/cdr.py:CDRWithFFTFilter"]}
{"id": "C46", "title": "Eye diagram life cycle", "statement": "Construction accepts exactly n>=1 waveforms of p>=n, p>=2 points with times and values, clocks of the same shape and one clock edge list per waveform, and raises ValueError otherwise (n=0 or p=1 aside). Every result getter raises RuntimeError until a calculate() has returned; from then on, whatever fails or is reconfigured, measures, heat map and one list of clock edges per waveform can be read, and the measures are those the last returning calculate gave. Calculating again, or a new object given the found clock edges, yields the same results. Clock edges once found are never recomputed. If the clock of one waveform cannot be found, no later calculate of that object returns.", "quantifier": "all arguments, all sequences of calculate and configuration changes, all failing steps, all behaviours of clock recovery and mixture fitting", "why_tests_cant": "ranges over all histories and all points where a step can fail", "anchors": ["hardware_tools/measurement/eyediagram/eyediagram.py:EyeDiagram", "hardware_tools/measurement/eyediagram/pam2.py:PAM2"]}
{"id": "C47", "title": "Configuration consumption", "statement": "A configuration accepts a set of keyword settings exactly when each key names an attribute it has, and then each named setting has the given value and all others keep theirs; an unknown key raises KeyError after the settings before it were applied. Constructing with settings is the defaults followed by that. (Not only settings are accepted: the method name consume is, and the documented time_hight is not.)", "quantifier": "all keyword dictionaries in all orders, both configuration classes", "why_tests_cant": "all dictionaries and orders", "anchors": ["hardware_tools/measurement/eyediagram/eyediagram.py:Config", "hardware_tools/measurement/eyediagram/pam2.py:PAM2Config"]}
{"id": "C48", "title": "Pixel mapping of guide lines", "statement": "The UI/UA to image coordinate helper returns no index or one index. A position inside the image gives the index of the pixel that contains it; up to one pixel to the left of the image gives index 0; from the right edge up to one pixel beyond gives an index one past the image; anything further out gives none.", "quantifier": "all positions and resolutions", "why_tests_cant": "boundary over continuous input", "anchors": ["hardware_tools/measurement/eyediagram/eyediagram.py:EyeDiagram._uia_to_image"]}
{"id": "C49", "title": "Bathtub curves", "statement": "Bathtub curves have nondecreasing time from 0 to 1 UI, bit error ratios in (0,1], falling on the left wall and rising on the right wall.", "quantifier": "all hit lists in [0,1]", "why_tests_cant": "all multisets of hits", "anchors": ["hardware_tools/measurement/eyediagram/eyediagram.py:EyeDiagram._generate_bathtub_curves"]}
{"id": "C50", "title": "Heat map conservation", "statement": "For one-dimensional eye heat maps point-cloud stacking adds exactly one count per in-grid sample, and column normalisation scales every non-empty column to the same total.", "quantifier": "all waveforms and grids", "why_tests_cant": "all records", "anchors": ["hardware_tools/measurement/eyediagram/_eyediagram_fb.py:stack", "hardware_tools/measurement/eyediagram/eyediagram.py:EyeDiagram._step5_stack"]}
{"id": "C51", "title": "Sinc interpolation reproduces samples", "statement": "interpolation.sinc over evenly spaced sample positions returns the original samples at those positions and zero at further positions of the same grid; between them it follows one continuous curve, scaling and adding as the samples do, that depends on positions only through the sample spacing (shifting or rescaling both time axes together changes nothing). It raises ValueError exactly when positions and samples differ in length, are not vectors or are too few.", "quantifier": "all real sample vectors, spacings and query positions", "why_tests_cant": "identity over reals", "anchors": ["hardware_tools/math/interpolation.py:sinc"]}
{"id": "C52", "title": "Gaussian curves, mixtures and fits", "statement": "A Gaussian with positive amplitude and deviation is positive, symmetric, strictly falling away from its mean, has peak amplitude/(stddev*sqrt(2 pi)), and gives the same values one by one and as an array; with zero deviation it is infinite at the mean (at the array element closest to it) and zero elsewhere. A mixture is the sum of its components. Its centre is the mean of the only component, else the best point of a fine grid around the best point of a coarse grid between the outermost means, within a millionth of the span of an impulse. A fit of samples keeps the number of components within the limit and the number of distinct values, picks the candidate with the least AIC, sorts by amplitude, and follows a change of units and offset of the samples; the sample error probability and its inverse undo each other and fall with threshold and sample count.", "quantifier": "all components, abscissae, samples, unit changes, and all behaviours of the external fitter", "why_tests_cant": "continuous input and an external fitter with arbitrary answers", "anchors": ["hardware_tools/math/gaussian.py:Gaussian", "hardware_tools/math/gaussian.py:GaussianMix"]}
{"id": "C53", "title": "Clock edge generator", "statement": "signal.clock.edges returns n edges; each is its ideal position plus sinusoidal, duty cycle, periodic random and uniform terms in documented amounts; edges are strictly ordered when the bounded terms together stay below a period; invalid sizes are rejected; and clock recovery finds period and phase of a jitter-free clock.", "quantifier": "all n, periods and jitter parameters, all random draws", "why_tests_cant": "all random draws", "anchors": ["hardware_tools/signal/clock.py:edges"]}
{"id": "C54", "title": "Derived eye measures are consistent", "statement": "The PAM2 derived measures satisfy their definitions for all samples: amplitude = level 1 - level 0, height = amplitude less three standard deviations of each level, crossing ratio in [0, 1] when the crossing level lies between the levels, mark plus space width = two symbols, distortion = half of their difference, symbol rate = 1 / symbol period, 0 < measured period <= two nominal symbols, rms jitter at most half of peak to peak jitter, which is at most one symbol; a level never sampled makes the measures that depend on it NaN; measured levels become 0 and 1 unit amplitude.", "quantifier": "all measured samples", "why_tests_cant": "algebra over reals", "anchors": ["hardware_tools/measurement/eyediagram/pam2.py"]}
{"id": "C55", "title": "Horizontal edge sampling", "statement": "PAM2 horizontal sampling of any record, clock and edge directions succeeds without reading outside of the record; the reported left and right crossing times are exactly the times of the samples whose value lies in the height window around the crossing level, within [-0.5, 0.5] and (0.5, 1.5] unit intervals; the reported edge times are exactly those of the samples in the height windows around the lower, middle and upper level, of the symbols with that edge direction, between the extremes of the symbol's window (fallback) or up to the symbol centre (compiled).", "quantifier": "all waveforms, symbol centres, edge directions and levels", "why_tests_cant": "all records; the two implementations search different parts of the window", "anchors": ["hardware_tools/measurement/eyediagram/_pam2_fb.py:sample_horizontal", "hardware_tools/measurement/eyediagram/_pam2.pyx:sample_horizontal_c"]}
{"id": "C56", "title": "Exponential bins", "statement": "stats.bin_exponential puts every sample of a non-empty, non-negative record in exactly one of bin_count bins, each count being the number of samples whose magnitude lies in the bin (the last one closed). Without zeros the edges go in equal exponential steps from the smallest to the largest sample; with zeros the first bin takes everything below whole decades that end at the decade of the largest sample. As a density each bin holds its share of the samples per step; constant positive data has no density. Empty input raises ValueError.", "quantifier": "all records of real samples and all bin counts", "why_tests_cant": "all records over a continuum, with zeros, ties and values on edges", "anchors": ["hardware_tools/math/stats.py:bin_exponential"]}
{"id": "C57", "title": "Levels, thresholds and clock of an eye", "statement": "PAM2.calculate uses manual levels exactly as given, independent of the samples when both are given (without debug plots). It places the rising and falling thresholds symmetrically around the decision level, hysteresis apart. The levels of a clean two-level signal are exact up to levels_n_max samples and a thousandth of the amplitude inside beyond it (up to ten times). A constant signal is rejected with an error. Scaling and shifting a signal and its manual settings scales and shifts all levels and leaves the low SNR decision alone. The SNR is low exactly if the amplitude is less than twice the deviations of the two halves. Edges of a clock waveform come out strictly increasing and BOTH merges both directions. The fixed rate clock has every multiple of the period inside the record. The symbol period averages the distances of adjacent edges below ten times their average. Refuted: with more than ten times levels_n_max samples a clean periodic signal may be rejected; with ten or fewer distances a gap is not left out.", "quantifier": "all sample lists, configurations, units, mixture fits, clock waveforms and edge lists", "why_tests_cant": "The levels depend on all samples through extrema, strides, bins and a fit; tests try a few simulated signals with one fit.", "anchors": ["hardware_tools/measurement/eyediagram/pam2.py:PAM2._step1_levels", "hardware_tools/measurement/eyediagram/pam2.py:PAM2._runner_levels", "hardware_tools/measurement/eyediagram/pam2.py:PAM2._step2_clock", "hardware_tools/measurement/eyediagram/pam2.py:_filter_edge_polarity", "hardware_tools/measurement/eyediagram/eyediagram.py:EyeDiagram._step2_clock"]}
{"id": "C58", "title": "Results of a completed eye diagram", "statement": "When PAM2.calculate returns, what it reports is about the symbols of the clock edges it reports. Every clock edge at least one symbol and a few samples away from both ends of its record gives a symbol, none closer than a symbol does, and the symbol is seen through the samples around the edge, placed to half a sample. n_sym is their number, n_samples the samples they last. Each symbol, its predecessor and its successor are decided by comparing the mean of the samples at their centres with the threshold; transition_dist counts these decisions and sums to n_sym, the bit stream has one bit per symbol, level and crossing values are the statistics of exactly the samples of the symbols decided that way, level 0 is below and level 1 above the threshold, times are taken from the samples around the edge levels and the crossing, the bathtub curve from all crossings of the middle. The heat map counts the pixels of the same samples, in each used column of a point cloud adding up to n_sym. The mask margin is a multiple of a thousandth in [-1, 1], negative exactly if symbols are reported as hitting the mask, at most n_sym of them; without a mask there is none. Given clock edges, the calculation finishes if low, high and crossing samples exist.", "quantifier": "all objects (any waveforms, records, masks and settings) whose calculate returned, with clock edges in order", "why_tests_cant": "The claims range over all waveforms and clocks; tests check a few simulated signals against stored numbers.", "anchors": ["hardware_tools/measurement/eyediagram/eyediagram.py:EyeDiagram.calculate", "hardware_tools/measurement/eyediagram/eyediagram.py:EyeDiagram._step3_sample", "hardware_tools/measurement/eyediagram/pam2.py:PAM2._step4_measure", "hardware_tools/measurement/eyediagram/eyediagram.py:EyeDiagram._step5_stack", "hardware_tools/measurement/eyediagram/pam2.py:PAM2.get_bit_stream"]}
{"id": "C59", "title": "Acquisition control", "statement": "stop, run, single and force send exactly their documented commands in order, poll until one of the awaited states is reported and end at the first failure with its exception, nothing sent after it. On an instrument that reports its state truly: after stop it is stopped without a new acquisition; run starts exactly one; when single returns it is stopped and holds exactly one waveform, taken in an acquisition started by this call. Refuted: single returns in AVERAGE or ENVELOPE mode (it waits for a count of 1 and times out).", "quantifier": "all instruments (any replies and failures, at any time), timeouts, trigger callables and earlier histories", "why_tests_cant": "Polls interleave with the state of an instrument that may answer, stall or fail at any point; tests use one scripted mock.", "anchors": ["hardware_tools/equipment/tektronix/family_mso4000.py:stop", "hardware_tools/equipment/tektronix/family_mso4000.py:run", "hardware_tools/equipment/tektronix/family_mso4000.py:single", "hardware_tools/equipment/tektronix/family_mso4000.py:force", "hardware_tools/equipment/tektronix/family_mso456.py:single"]}
{"id": "C60", "title": "Reading a waveform", "statement": "read_waveform switches the channel on, sets up the transfer of the whole record, asks for it and switches headers off again before decoding, in this order up to the first failure, whatever the instrument does. From an instrument that stores its settings and answers with the waveform of the selected channel, the user gets that waveform: one sample per code, scaled values, time axis, clipping flags and units; headers are off afterwards and no setting outside the transfer has changed. Refuted: after a failed read other properties can still be read (headers stay on).", "quantifier": "all instruments, channels, records, preambles and families; add_noise off for the result", "why_tests_cant": "The result depends on the state of the instrument after a dialogue of eight commands and on every preamble and record; tests replay one recorded dialogue.", "anchors": ["hardware_tools/equipment/tektronix/family_mso4000.py:MSO4000Channel.read_waveform", "hardware_tools/equipment/tektronix/family_mso456.py:MSO456Channel.read_waveform", "hardware_tools/equipment/tektronix/common.py:parse_waveform_query"]}
{"id": "C61", "title": "Opening a scope and its channels", "statement": "A scope object that was constructed has opened one resource, identified the instrument as a supported model, and has exactly the channels the instrument reported: analog 1 to n and digital 0 to m-1 of a 4000 series scope, the displayed CH numbers of a 4/5/6 series scope; ch() and d() return the channel with that name and raise KeyError for any other index. Construction sends a fixed dialogue and leaves headers off. An instrument of another model is rejected with ValueError before anything but the identity query is sent.", "quantifier": "all instruments, replies, addresses and channel numbers", "why_tests_cant": "Replies are texts of arbitrary size, spelling and order; tests have two recorded ones.", "anchors": ["hardware_tools/equipment/scope.py:Scope.ch", "hardware_tools/equipment/scope.py:Scope.d", "hardware_tools/equipment/tektronix/family_mso4000.py:MSO4000Family._init_channels", "hardware_tools/equipment/tektronix/family_mso456.py:MSO456Family._init_channels"]}
{"id": "C62", "title": "Images of an eye diagram", "statement": "Every successful calculate() leaves five images. In the clean image a pixel is transparent exactly where the heat map is zero, and elsewhere has the colour of its count relative to the peak, a ratio in (0, 1]. The grid image is yellow exactly on the guide lines (0, 1/2, 1, quarters outside and the configured edge levels, with their dash patterns). With a mask the mask image is magenta exactly inside the outlines converted to the reported period and amplitude, the margin image exactly inside the outlines adjusted by the reported margin, and the hits image is red exactly on circles around points where a reported bad symbol meets the outline and on the traces of the first two bad symbols of each record, so nothing is visible without bad symbols. Without a mask or with skipped measures these three images are transparent. It fails after a mask was used and measures are then skipped: calculate() raises for every later configuration that skips measures.", "quantifier": "all waveforms, masks, configurations, resolutions, level fits and drawing primitives", "why_tests_cant": "Images depend on every sample, symbol and mask; tests compare a few stored pictures.", "anchors": ["hardware_tools/measurement/eyediagram/eyediagram.py:EyeDiagram._step5_stack", "hardware_tools/measurement/eyediagram/eyediagram.py:_runner_draw_symbols", "hardware_tools/measurement/eyediagram/eyediagram.py:EyeDiagram._uia_to_image", "hardware_tools/math/image.py:layer_rgba"]}
{"id": "C63", "title": "Saved and printed results", "statement": "save_json after a calculation writes one JSON document whose names are exactly the public attributes of the measures (without the image attributes if they are excluded), each once, and whose values are the reported ones: value and standard deviation of every measure, counts, transition distribution, margin, bathtub curve and images as base64 PNG; measures that were skipped are null. Other files are untouched. With allow_nan=False saving succeeds exactly when every reported value is a number, otherwise ValueError is raised and the previous contents of the file are lost. The encoder accepts exactly the values for which a JSON value exists and raises TypeError or ValueError otherwise. to_dict has exactly the public attributes of any object, sorted. save_images writes the five images and, if stacked, composites in which the topmost opaque layer of grid, waveform, mask and hits is visible; before a calculation it raises TypeError and writes nothing. pretty_print prints one line per public attribute with name and value, unless an attribute is an empty dictionary.", "quantifier": "all results of calculations, objects, nested values, file systems, file names, image contents and formatting functions", "why_tests_cant": "Documents are arbitrarily nested, any of 37 values may be missing or nan, and a failing save depends on the values; tests save a handful of fixed objects.", "anchors": ["hardware_tools/measurement/eyediagram/eyediagram.py:MeasuresJSONEncoder.default", "hardware_tools/measurement/eyediagram/eyediagram.py:Measures.to_dict", "hardware_tools/measurement/eyediagram/eyediagram.py:Measures.save_json", "hardware_tools/measurement/eyediagram/eyediagram.py:Measures.save_images", "hardware_tools/measurement/eyediagram/eyediagram.py:Measures.pretty_print", "hardware_tools/measurement/eyediagram/pam2.py:MeasuresPAM2", "hardware_tools/math/image.py:np_to_file", "hardware_tools/math/image.py:np_to_base64", "hardware_tools/math/stats.py:UncertainValue.__format__"]}
{"id": "C64", "title": "Masks as dictionaries", "statement": "From the dictionary of a converted (or converted and adjusted) hexagon or decagon mask a mask of the same kind with the same outline can be constructed, whatever amplitude and interval it is converted with later; the same holds before conversion for masks counted from zero with plain numbers. Masks of other shapes give their paths, or raise ValueError before conversion. It fails before conversion for masks counted from the centre, whose reconstruction always has another outline, and for numbers in real units.", "quantifier": "all masks, amplitudes and intervals", "why_tests_cant": "It relates two constructions and conversions for every choice of parameters; tests compare one dictionary per shape.", "anchors": ["hardware_tools/measurement/mask.py:Mask.to_dict", "hardware_tools/measurement/mask.py:MaskHexagon.to_dict", "hardware_tools/measurement/mask.py:MaskDecagon.to_dict"]}
{"id": "C65", "title": "Autoscaling a channel of a scope", "statement": "Autoscaling a channel sends nothing but the record length, the scale and position of that channel, the control of acquisitions and the transfer of its waveform, however the instrument answers and however the call ends. If it returns, the waveform read last was well placed on the digitiser, was taken in the last of at most nine acquisitions started by the call, and the settings it was taken at are still in place, with the record length as before. On a scope showing a signal inside the middle 88 % of the screen and covering a fifth of it, it returns after at most two acquisitions with the signal covering 74 % to 90 % of the screen, although settings are stored with seven digits and samples have the resolution of the digitiser.", "quantifier": "all instruments, channels, families, trigger functions, signals, scales and positions", "why_tests_cant": "The instrument is an arbitrary state machine with arbitrary failures, and convergence is a claim about every signal under rounding of settings and samples.", "anchors": ["hardware_tools/equipment/scope.py:AnalogChannel.autoscale", "hardware_tools/equipment/tektronix/family_mso456.py:MSO456Family.single", "hardware_tools/equipment/tektronix/family_mso4000.py:MSO4000Family.single", "hardware_tools/equipment/tektronix/common.py"]}
{"id": "C66", "title": "A session with a scope", "statement": "Connecting to a scope, using it in a with statement and leaving it opens at most two resources, one after the other and never two at once; commands go only to the one that is open; and when the session is over none is open, whatever the instrument answers, whichever step fails and whatever the body does with the object, including catching exceptions and closing it itself. The body runs only with a connected scope, of the family whose pattern matches the identity the instrument gave, and its value or exception is the outcome of the session. Every function of a scope is something a body can do.", "quantifier": "all instruments whose resources are message based and can be closed, identities, bodies built from the functions of the object with any control flow and exception handling, and points of failure", "why_tests_cant": "The points of failure and the programs written by users are unbounded; a leaked resource shows only at the next connection.", "anchors": ["hardware_tools/equipment/utility.py:connect", "hardware_tools/equipment/equipment.py:Equipment.__init__", "hardware_tools/equipment/equipment.py:Equipment.__enter__", "hardware_tools/equipment/equipment.py:Equipment.__exit__", "hardware_tools/equipment/equipment.py:Equipment.__del__", "hardware_tools/equipment/equipment.py:Equipment.close", "hardware_tools/equipment/scope.py:Scope.__init__"]}
{"id": "C67", "title": "An eye diagram recovers the data sent", "statement": "If every record of the waveforms carries bits - around the middle of each symbol the samples lie in the band of a 1 or in the band of a 0, the decision threshold separates the two bands, the clock edges are near the middles of successive symbols and there are more than three samples per symbol - then a completed eye diagram reports exactly the bits sent, over a run of successive symbols that contains every symbol well inside the record and none that is not inside it; the transitions are counted as sent; the levels lie within the bands and the amplitude is their difference. With the clock given, both bits and a change in sight and the sampling fine enough, the calculation does complete. If no clock is given, the clock recovered from the signal has its edges near the middles of successive symbols and so the same is reported: with a fixed period that is the period of the signal always, and with a period that was found if it does not drift over a record. Noise within the bands, jitter of the clock edges and an error of the measured period are allowed for.", "quantifier": "all waveforms, numbers of records, bit sequences, bands, thresholds, periods, jitters and configurations", "why_tests_cant": "A test sends a few bit patterns; the claim is for every pattern, every noise within the bands and every alignment of samples and symbols.", "anchors": ["hardware_tools/measurement/eyediagram/eyediagram.py:EyeDiagram.calculate", "hardware_tools/measurement/eyediagram/pam2.py:PAM2", "hardware_tools/measurement/eyediagram/pam2.py:PAM2.get_bit_stream", "hardware_tools/measurement/eyediagram/cdr.py:CDR.run"]}
{"id": "C68", "title": "The units of the values do not matter to an eye diagram", "statement": "Give two eye diagrams the same records, clocks, mask and configuration, once in one unit of the values and once in another (v becomes a v + b with a > 0; mask heights and hysteresis in real units become a times as much, configured levels and the noise floor move with the values). Then both constructors accept or both raise the same error; and over any history of calculations and changes of configuration, each call returns or raises the same in both, except that measured levels are in the new unit and differences of levels are multiplied by a. The clock edges, bit stream, transitions, counts, times, ratios, mask margin, offenders, bathtub curves, heat map and images are the same.", "quantifier": "all waveforms, clocks, masks, configurations, units, histories of calls, and behaviours of the level fit, clock recovery and drawing functions", "why_tests_cant": "A test compares a few signals at a few scales; the claim is for every signal, unit, mask and history, with or without errors.", "anchors": ["hardware_tools/measurement/eyediagram/eyediagram.py:EyeDiagram", "hardware_tools/measurement/eyediagram/eyediagram.py:EyeDiagram.calculate", "hardware_tools/measurement/eyediagram/pam2.py:PAM2", "hardware_tools/measurement/eyediagram/_pam2_fb.py:sample_vertical", "hardware_tools/measurement/mask.py:Mask"]}
{"id": "C69", "title": "The unit and origin of time do not matter to an eye diagram", "statement": "Give two eye diagrams the same records, clocks, clock edges, mask and configuration, once in one time and once in another (t becomes s t + o with s > 0 and o a whole number of sample periods; the fallback period and mask widths in real units become s times as much). Then both constructors accept or both raise the same error; and over any history of calculations and changes of configuration each call returns or raises the same in both, except that clock edges are in the new time, durations are multiplied by s and the symbol rate divided by s. The bit stream, counts, levels, ratios, mask margin, offenders, bathtub curves, heat map and images are the same. This needs the clock recovery to follow the change: recovery with a fixed period does so for every s and o, recovery that searches the period for every o. With another s the search does not: there are edges for which it finds a clock in one unit and raises ArithmeticError in another.", "quantifier": "all waveforms, clocks, clock edges, masks, configurations, units and origins, histories of calls, and behaviours of the level fit, percentile and drawing functions", "why_tests_cant": "A test compares a few records in a few units; the claim is for every record, unit, origin, mask and history, with or without errors.", "anchors": ["hardware_tools/measurement/eyediagram/eyediagram.py:EyeDiagram", "hardware_tools/measurement/eyediagram/eyediagram.py:EyeDiagram.calculate", "hardware_tools/measurement/eyediagram/pam2.py:PAM2", "hardware_tools/measurement/eyediagram/cdr.py:CDR.run", "hardware_tools/measurement/eyediagram/_cdr_fb.py:minimize_tie_disjoints", "hardware_tools/measurement/eyediagram/_pam2_fb.py:sample_horizontal"]}
{"id": "C70", "title": "The order of the records does not matter to an eye diagram", "statement": "Give two eye diagrams the same records, with their clocks or clock edges, in any two orders, and the same mask, resolution and configuration. Let all records take the same time and the levels be given, or be found from all samples by a fit that depends on the values and not on their order. Then calculate completes for both or raises for both. If it completes, the measures are the same field by field, with their uncertainties, as are the heat map and the images of the eye, grid, mask and margin. The clock edges and the bit streams are those of the same records in the other order. The image of the hits is left out: offending symbols are drawn in the order of the records. (Finding: this fails for records that last different times; the sample period of the first one is used for all.)", "quantifier": "all waveforms, clocks, clock edges, masks, configurations and orders of the records, and behaviours of the level fit, percentile, clock recovery and drawing functions", "why_tests_cant": "A test reorders a few records of one capture; the claim is for every number of records and every order of them.", "anchors": ["hardware_tools/measurement/eyediagram/eyediagram.py:EyeDiagram.calculate", "hardware_tools/measurement/eyediagram/eyediagram.py:EyeDiagram.get_bit_stream", "hardware_tools/measurement/eyediagram/pam2.py:PAM2", "hardware_tools/math/gaussian.py:fit_mix_samples"]}
{"id": "C71", "title": "An open eye is decided correctly without configured levels", "statement": "When no levels or threshold are configured, PAM2.calculate finds level 0 in the lower half and level 1 in the upper half of the range of the samples (up to a 2000th of the range), whatever their distribution, and its threshold strictly within the middle three fifths, also when there are so many samples that they are thinned out and binned, provided 2 % of those looked at lie near each end of the range. So if around the middle of each symbol the samples of a 1 lie in the upper fifth and those of a 0 in the lower fifth of the range of all samples, a completed eye diagram reports exactly the bits sent, with given clock edges as well as with the clock recovered from the signal unless the eye is found too noisy; and with given clock edges, both bits and a change in sight, it completes. It is not robust to outliers: one sample three times as high as all the others moves the threshold above all of them.", "quantifier": "all waveforms, distributions of samples, records, bits, periods, jitters, sample limits and behaviours of a mixture fit whose means are averages of the samples", "why_tests_cant": "the levels come from a mixture fit on thinned and binned samples; only a proof covers every distribution of the samples and every behaviour of the fit", "anchors": ["hardware_tools/measurement/eyediagram/pam2.py:_runner_levels", "hardware_tools/measurement/eyediagram/pam2.py:PAM2._step1_levels", "hardware_tools/math/gaussian.py:fit_mix_samples", "hardware_tools/math/gaussian.py:GaussianMix.center", "hardware_tools/math/stats.py:downsample", "hardware_tools/math/stats.py:bin_linear"]}
{"id": "C72", "title": "The clock recovered from data with jitter does not drift", "statement": "Let the edges of a record lie within a jitter J of the symbol boundaries of a steady period T, at most 20 symbols apart and m symbols apart on average, with 25 J <= T and (7 m + 6) J < T, and let the CDR start its period search within 1 % of T. Then a completed recovery returns, for a record of any length, a period p with (p - T)^2 (n^2 - 1) <= 12 J^2 for n edges, one clock edge per symbol between the first and the last edge (or one more), each within (3.5 m + 2) J of the middle of its symbol, and time interval errors not above that. It completes if m <= 5, T is at most 900 (in the unit of time used) and the record is short enough for the allowed number of computations. So an eye diagram of such a signal with its clock recovered, the period searched for, reports exactly the bits sent and a symbol period within 2 J of T, and it completes when both bits and a change are in sight; also when the levels are not configured and the eye is open.", "quantifier": "all records of any length, bits, jitters, periods, first guesses, phases and edge polarities, and all completed or started calculations", "why_tests_cant": "a test runs a few records of one length and one pattern of jitter; that the error does not grow with the length of the record, for every pattern of jitter, needs a proof", "anchors": ["hardware_tools/measurement/eyediagram/cdr.py:CDR.run", "hardware_tools/measurement/eyediagram/_cdr_fb.py:minimize_tie_disjoints", "hardware_tools/measurement/eyediagram/_cdr_fb.py:detrend_ties", "hardware_tools/measurement/eyediagram/eyediagram.py:EyeDiagram.calculate", "hardware_tools/measurement/eyediagram/pam2.py:PAM2._step2_clock"]}
{"id": "C73", "title": "Each change of the data gives exactly one edge", "statement": "Let a record be sampled at least once near the middle of each symbol, let the samples near the middle of a symbol be beyond the threshold of its bit, and let no sample between two symbols be beyond the threshold of the old bit after one beyond that of the new (or, between equal bits, beyond that of the other bit). Then the edges found for the clock recovery are exactly one per change of the data (rising, falling or both, as configured), in order, each within half a period minus the shown distance plus one sample period of the boundary of the two symbols. Transitions that only rise or only fall satisfy this for every choice of thresholds between the bands. So an eye diagram of such data with its clock recovered completes and reports exactly the bits sent, given only that the data changes at least every 19 symbols, not too rarely on average, and contains both bits; also when no levels are configured, if the bands are outer fifths of the range less half the hysteresis and the signal to noise ratio is high enough, which it always is when all samples are in the outer sevenths. (Finding: a single sample on the wrong side between two equal bits is counted as two edges, although every symbol is decided correctly.)", "quantifier": "all records of any length, bits, noise within the bands, shapes of transitions, sample periods, thresholds and edge polarities", "why_tests_cant": "a test feeds a few patterns; that no edge is missed, doubled or reordered for every bit sequence, noise and transition shape needs a proof", "anchors": ["hardware_tools/math/_lines_fb.py:edges", "hardware_tools/math/_lines_fb.py:edges_np", "hardware_tools/measurement/eyediagram/pam2.py:_runner_cdr", "hardware_tools/measurement/eyediagram/pam2.py:PAM2._step1_levels", "hardware_tools/measurement/eyediagram/eyediagram.py:EyeDiagram.calculate"]}
{"id": "C74", "title": "An open eye is measured as open", "statement": "Let the samples for h symbols on each side of the middle of every symbol show its bit: be at or below one value for a 0 and at or above a higher one for a 1. Then in a completed calculation: all times reported for the crossing of a level between these values are within (1/2 - h) symbols of the symbol boundary, so jitter, symbol period, symbol rate and eye width are off by no more than that allows; no point of the bathtub curve's walls is within h symbols, less one sample period, of the middle; a mask that fits into this opening when adjusted by some margin is reported with at least that margin, and with no bad symbols if the margin is not negative; and if edges of the data only go up or only go down, the start of bits, their lengths, duty cycle distortion, and rise and fall times keep the same bounds. All of this holds also with the clock recovered from the data and with levels that are not configured, for data as in C73, and the calculation completes.", "quantifier": "all records, bits, noise and edge shapes outside the opening, clocks, masks, margins and configured heights, and all completed calculations", "why_tests_cant": "a test draws a few eyes; that no symbol of any open eye puts a crossing, a wall of the bathtub curve or a mask hit into the opening needs a proof over all signals and masks", "anchors": ["hardware_tools/measurement/eyediagram/pam2.py:PAM2._step4_measure", "hardware_tools/measurement/eyediagram/eyediagram.py:EyeDiagram._sample_mask", "hardware_tools/measurement/eyediagram/_eyediagram_fb.py:sample_mask", "hardware_tools/measurement/eyediagram/eyediagram.py:EyeDiagram.calculate", "hardware_tools/measurement/mask.py:Mask.adjust", "hardware_tools/math/_lines_fb.py:is_hitting"]}
{"id": "C75", "title": "Joining samples by lines affects only the picture", "statement": "If an eye diagram can be calculated with one setting of point_cloud (samples drawn as points, or joined by lines as by default), it can be calculated with the other: drawing the lines always ends, and measures, clock edges, bit stream and the grid, mask, hit and margin images are the same; only the heat map and its coloured image differ. Hence what is said about recovered data and open eyes holds with lines, the default.", "quantifier": "all eye diagram objects, waveforms, configurations, masks, clocks and resolutions for which the calculation completes with positive symbol and sample periods", "why_tests_cant": "that the line drawing loop ends for every window of samples, at any distance between successive pixels, and that no measure depends on the drawing, is a statement about all inputs", "anchors": ["hardware_tools/measurement/eyediagram/eyediagram.py:_step5_stack", "hardware_tools/measurement/eyediagram/_eyediagram_fb.py:stack", "hardware_tools/math/_lines_fb.py:draw"]}
{"id": "C76", "title": "An eye diagram without measures", "statement": "If an eye diagram can be calculated with measures, the same object with skip_measures can be calculated: it reports the same clock edges, numbers of symbols and samples and the same grid image, no other measure, and no bit stream. An object that was measured can be calculated again with skip_measures, keeping its bit stream, if it has no mask. (Finding: with a mask it raises a TypeError, for every such object, because the mask is still drawn and there is no margin.)", "quantifier": "all eye diagram objects, waveforms, configurations, masks, clocks and resolutions for which the calculation completes with positive symbol and sample periods", "why_tests_cant": "it relates two runs for every input, and the failure needs a history of two calculations on one object with a changed configuration", "anchors": ["hardware_tools/measurement/eyediagram/pam2.py:_step4_measure", "hardware_tools/measurement/eyediagram/eyediagram.py:_step5_stack", "hardware_tools/measurement/eyediagram/eyediagram.py:calculate"]}
{"id": "C77", "title": "The resolution affects only the images", "statement": "If an eye diagram can be calculated at one resolution, the same waveforms, clocks, mask and configuration can be calculated at every positive resolution, and the measures, clock edges and bit stream are the same.", "quantifier": "all eye diagram objects not yet calculated with a mask, all waveforms, clocks, masks, configurations whose edge levels are from -1/2 to below 3/2, all pairs of resolutions of which the second is positive, all implementations of the anti-aliased line primitive whose weights are between 0 and 1", "why_tests_cant": "it relates two runs for every input and for unboundedly many resolutions; drawing at another resolution visits other pixels and could raise or disturb the results only at particular sizes", "anchors": ["hardware_tools/measurement/eyediagram/eyediagram.py:calculate", "hardware_tools/measurement/eyediagram/eyediagram.py:_step5_stack", "hardware_tools/measurement/eyediagram/pam2.py:_step4_measure"]}
{"id": "C78", "title": "Debug plots and the results", "statement": "If an eye diagram can be calculated with debug plots, it can be calculated without, with the same measures, images, heat map, clock edges and bit stream, provided that a level is not configured, or the clock is given, or the configured levels are apart by at least twice the noise found at the levels of the waveforms. (Finding: otherwise debug plots change the results: only with debug plots is the noise looked at when both levels are configured, and the recovered clock is then replaced by one of a fixed rate. A concrete record is calculated with a period of 2 without and a period of 1 with debug plots.)", "quantifier": "all eye diagram objects in any state, waveforms, configurations, masks, clocks, level fits and clock recoveries", "why_tests_cant": "it relates two runs for every input; the difference depends on the noise of the record relative to configured levels, and appears only when somebody debugs", "anchors": ["hardware_tools/measurement/eyediagram/pam2.py:_step1_levels", "hardware_tools/measurement/eyediagram/pam2.py:_step2_clock", "hardware_tools/measurement/eyediagram/eyediagram.py:_step2_clock", "hardware_tools/measurement/eyediagram/eyediagram.py:calculate"]}
{"id": "C79", "title": "A mask affects only the results of the mask", "statement": "If an eye diagram can be calculated with a mask, the same waveforms can be calculated without, and for any two masks (or none) with which the calculation completes the reported values are the same: all measures but the mask margin and the number of bad symbols, the heat map, the clock edges, the bit stream and the clean and grid images.", "quantifier": "all eye diagram objects not yet calculated with a mask, all waveforms, clocks, configurations, resolutions and pairs of masks, with and without debug plots", "why_tests_cant": "it relates runs with every pair of masks on every input; the mask code works on the same object and between the steps that compute the other measures", "anchors": ["hardware_tools/measurement/eyediagram/pam2.py:_step4_measure", "hardware_tools/measurement/eyediagram/eyediagram.py:_sample_mask", "hardware_tools/measurement/eyediagram/eyediagram.py:_step5_stack", "hardware_tools/measurement/eyediagram/eyediagram.py:calculate"]}
{"id": "C80", "title": "Clock waveforms are read at the threshold of the data", "statement": "If clock waveforms are given and the calculation completes, every reported clock edge of a waveform is a time at which its clock waveform passes the threshold found for the data, and there are at least two edges in some waveform. (Finding: a clock waveform has no levels of its own. If no clock waveform passes the threshold of the data, for instance because the clock was recorded at a smaller height, every calculation raises, however clean the clock.)", "quantifier": "all eye diagram objects with clock waveforms and no clock edges yet, all waveforms, configurations, edge polarities and level fits, with and without debug plots", "why_tests_cant": "it concerns every pair of data and clock waveforms and every threshold the level search can find; a test uses clocks of the same levels as the data", "anchors": ["hardware_tools/measurement/eyediagram/pam2.py:_step2_clock", "hardware_tools/measurement/eyediagram/pam2.py:_filter_edge_polarity", "hardware_tools/math/lines.py:edges_np"]}
{"id": "C81", "title": "An inverted signal gives the inverted data", "statement": "Inverting a record and its thresholds exchanges the rising and falling edges found and keeps their times, if the record starts outside the band between the thresholds and no sample is exactly at the middle one. Sampled around the same clock, zeros and ones are exchanged, level samples are negated and edges have the opposite direction, if no mean that a symbol is decided by is exactly at the threshold. So two completed eye diagrams of opposite records with the same clock and opposite thresholds (as with configured levels that are exchanged and negated) report the same changes, opposite bits in every record with a change, opposite transitions, negated levels and the same amplitude; for records of sent bits with the threshold between the bands without further conditions. (Finding: a record that starts within the band is not treated symmetrically; upside down it can have one edge more.)", "quantifier": "all records, thresholds, clocks, sample periods, window widths, level fits and configurations with both levels or any levels with opposite thresholds", "why_tests_cant": "it relates two calculations for every record and configuration; a test compares them for a few records", "anchors": ["hardware_tools/math/_lines_fb.py:edges", "hardware_tools/measurement/eyediagram/_pam2_fb.py:sample_vertical", "hardware_tools/measurement/eyediagram/pam2.py:_step1_levels", "hardware_tools/measurement/eyediagram/pam2.py:get_bit_stream"]}
{"id": "C82", "title": "Records do not affect each other", "statement": "With the same threshold, windows, sample period and symbol period, an eye diagram of some records followed by others reports the bit streams of the first records and then those of the others, as eye diagrams of each part alone do; the numbers of symbols and of each transition are the sums of those of the parts; and each reported level (low, high, crossing, average) lies between those of the parts, if both parts report it. With a mask and configured levels, the number of symbols that hit the mask is the sum of those of the parts, and the mask margin is the smaller one. The symbol period of all records lies between those of the parts if no clock period is ten times as long as another, so it is the same if theirs are.", "quantifier": "all lists of records, clocks, thresholds, window widths, periods and configurations for which the three calculations complete", "why_tests_cant": "it relates three calculations for every split of every list of records; a test compares a few", "anchors": ["hardware_tools/measurement/eyediagram/eyediagram.py:_step3_sample", "hardware_tools/measurement/eyediagram/pam2.py:_step4_measure", "hardware_tools/measurement/eyediagram/_pam2_fb.py:sample_vertical", "hardware_tools/measurement/eyediagram/pam2.py:get_bit_stream"]}
