{
"C01": {
"status": "proved",
"note": "All five buffer classes, every append/get history; plus a full characterisation of get() by the appended frames."
},
"C02": {
"status": "proved",
"note": "Late frames only bump the dropped counter and change no later output; newer frames are kept."
},
"C03": {
"status": "proved",
"note": "Permutation between appended frames and dropped + buffered + returned valid frames; histories of append/get/flush."
},
"C04": {
"status": "partial",
"note": "Proved when no (timestamp, id) pair is duplicated and all ids are expected; refuted in general (duplicates that reach nFrames, duplicates in partial sets, COR over-full sets, NaN in COR fill frames)."
},
"C05": {
"status": "partial",
"note": "Drain proved; time order and non re-emission after flush refuted (insertion order is used)."
},
"C06": {
"status": "proved",
"note": ""
},
"C07": {
"status": "proved",
"note": ""
},
"C08": {
"status": "partial",
"note": "Proved for COR/VDIF/TBX, and for DRX/DRX8 when later frames are after 1980; refuted for DRX/DRX8 (reset loses the 1980 floor)."
},
"C09": {
"status": "partial",
"note": "Stable sort proved; the key is the identifier order for 3-tuples and scalars, refuted for 2-tuples (COR, VDIF with several stations)."
},
"C10": {
"status": "proved",
"note": "Ordinary files and split files, any block of reads/seeks including raising ones."
},
"C11": {
"status": "partial",
"note": "Refinement of the joined file proved for reads not larger than an interior part and seeks from start/current/(0,2); refuted for reads over three parts, empty parts, seek from the end with offset, read(-1), failed seeks. In all cases reads return a prefix of the right bytes."
},
"C12": {
"status": "proved",
"note": "All frames, at any position; every field and all 4096 samples."
},
"C13": {
"status": "proved",
"note": "Total characterisation on arbitrary byte strings, and streams of well-formed frames, DRX and DRX8."
},
"C14": {
"status": "proved",
"note": ""
},
"C15": {
"status": "proved",
"note": ""
},
"C16": {
"status": "partial",
"note": "Everything but the tuning word round-trips; tuning word, frame count and second count are never written (proved, and a load/write/read witness). is_valid=False is ignored for time offsets; beams are masked before validation."
},
"C17": {
"status": "partial",
"note": "Proved for floating point samples; refuted for CI8 samples, which wrap."
},
"C18": {
"status": "proved",
"note": "Every process history; frame of the channel count the reader assumes; Hermitian property for any bytes. Visibilities are compared as bit patterns."
},
"C19": {
"status": "partial",
"note": "Stream theorem when the cache assumes n channels, or more with enough data and no imitated frame boundary; refuted for stale caches, short files and imitated boundaries; one-read characterisation for all bytes and histories."
},
"C20": {
"status": "partial",
"note": "Stream theorem whenever a frame of the assumed size fits into the file; refuted for shorter files, first channels above 32767 and the error type of the integer variant; one-read characterisation for all bytes and histories."
},
"C21": {
"status": "proved",
"note": "Every header field and every sample, for 1/2/4/8 bits, real/complex, any channel count, legacy or not, anywhere in a file; streams of frames until EOFError; totality on arbitrary bytes. float32 values are exact rationals (rounding of the level table not modelled). read_frame_i8 of complex data reads outside its array (see DESIGN.md) and is not covered."
},
"C22": {
"status": "partial",
"note": "Round trip proved for in-range samples filling whole 8-byte units. The full property (every whole number of words, every value) is refuted by three witnesses."
},
"C23": {
"status": "partial",
"note": "Decode, stream, exact in-bounds characterisation and description functions proved for the reader model; the full statement (every format byte, any fills) is false of the code: C23_drspec_overread_refuted, C23_drspec_mixed_refuted, C23_drspec_norm_refuted. Conversion of the normalisation to float is not modelled."
},
"C24": {
"status": "partial",
"note": "Round trip proved with explicit floating-point error bounds on days without leap second, order proved for all; the tag round trip is false on every leap-second day: C24_leap_day_refuted. astropy's UTC-TAI arithmetic is modelled after ERFA."
},
"C25": {
"status": "partial",
"note": "Instant preserved in all cases; exact characterisation of the parts; the claimed ranges are false at negative whole fractions (C25_fraction_refuted) and in the first second of a day (C25_pulsar_midnight_refuted)."
},
"C26": {
"status": "partial",
"note": "Both round trips for every day of years 1-9999 with total floating point error below half a microsecond; the day number is the calendar day count; in binary64 the error bound fails from 2131 on (C26_far_future_refuted)."
},
"C27": {
"status": "proved",
"note": "All words (integers) with total floating-point error below half a word, nearest word in exact arithmetic."
},
"C28": {
"status": "partial",
"note": "Round trips in exact arithmetic over the whole ranges; in binary64 some delay words do not survive (C28_delay_float_refuted); values out of range wrap silently (C28_out_of_range_refuted)."
},
"C29": {
"status": "partial",
"note": "All ranks and sizes with dimensions of at least 1, and the size mismatch error; zero and negative dimensions misbehave (C29_dimensions_refuted)."
},
"C30": {
"status": "proved",
"note": "Proved for any unbroken file, any order within a set and any read lengths, and beyond that for late, missing and bad frames and fillable gaps; what fails beyond the property (gaps near the end, tuning 2 alone, swapped sets at the end, two beams) is recorded as refutations."
},
"C31": {
"status": "partial",
"note": "Proved for DRX and DRX8 for every junk without a sync word, at least 32 frames, and file sizes whose look-ahead frames exist; refuted otherwise: sizes just above 1, 2, 4, 8 or 16 MiB and files of fewer than 32 frames raise EOFError, and a stray header skips the first frame."
},
"C32": {
"status": "partial",
"note": "FileCache over any history of opens, writes, removes and any directory order: when a file has been opened for writing the cache is within its limit or has one entry, the entries removed are the oldest and no more than needed; a file opened with 'w' stays if all others are older; without a limit only remove() removes; cleaning ends if there are no directories.  MemoryCache the same with the time of the last flush().  Refuted: limit after writing, append to the oldest file, ties, subdirectories (endless loop), lock kept after a failed open, a new memory file being thrown away, MemoryCache.getmtime."
},
"C33": {
"status": "partial",
"note": "Simulation: any program that uses 'w' and 'r' handles as intended (binary mode, any number of files, interleaved, unlimited cache) gets the answers and contents of ordinary files, except that seek() returns None.  Refuted: append mode, iteration, reading a missing file, write protection, nested opens, extending truncate.  Missing: text mode, which decodes n bytes rather than n characters."
},
"C34": {
"status": "partial",
"note": "FileLock as a transition system over any number of objects and threads, one system call per step, with crashes and removal of the lock file: mutual exclusion, release/crash lets the next attempt in, and failure only when somebody has the file, for schedules in which the file is not removed under a holder, locked objects are not shared, and holders release their own lock; at most one locked object per file without those conditions.  Refuted without them (removal while held, shared object, re-entry).  Also refuted: the body of a with statement runs without the lock after the timeout; an unopenable lock file raises instead of warning; MemoryLock.locked() and acquire(blocking=False).  MemoryLock mutual exclusion proved in full."
},
"C35": {
"status": "partial",
"note": "ProgressBar has exactly span characters for every amount from 0 to max, with and without percentage, and runs through its stages in order; exact stage in exact arithmetic; counting. For any rounding function with the listed properties of doubles. Refuted: ProgressBarPlus and DownloadBar have span + 9 characters (proved exactly), amounts beyond max. Colours are not modelled."
},
"C36": {
"status": "partial",
"note": "Any session of programs with set, failed set, nested set_temp, exceptions, saves and other writers: pending changes are exactly the parameters that differ from the values at load or last save, provided no set() of a parameter is made inside a set_temp() block of the same parameter (refuted otherwise). Exact condition under which a save writes; restoration by set_temp for every block and every exception. Refuted: second save of a session, changes reported abandoned but written, KeyError masked, view().set() fallback."
},
"C37": {
"status": "partial",
"note": "Round trip for every configuration whose names are section.item, whose values are denoted by their own text and whose None values are defaults; loading fails iff a line has no '='. Refuted for None over a default, strings that look like other types, edge spaces, newlines. Float repr/parse enter as functions that must agree on the float values present."
},
"C38": {
"status": "partial",
"note": "All pairs once in order, lookup of any cross-correlation; refuted for autocorrelation lookup, which returns the first baseline containing the antenna."
},
"C39": {
"status": "proved",
"note": "Both packings, their inverses, ordering and absence of collisions within the antenna limits."
},
"C40": {
"status": "partial",
"note": "Degrees exact for every angle; hours exact on [0, 360); refuted for negative angles, angles from 360 degrees, add_hms (hours never change) and binary64 fields off by a minute."
},
"C41": {
"status": "proved",
"note": "range_degrees, range_hours and the compass letter in exact arithmetic."
},
"C42": {
"status": "partial",
"note": "Right at every time of every date except exactly midnight; refuted at midnight of even modified Julian days."
},
"C43": {
"status": "partial",
"note": "Exact characterisation (iff) of what csv_int_list, csv_baseline_list, csv_hostname_list, positive_int and the angle lists accept, give and reject, for every string; printed integer lists read back. Refuted: IPv4 bytes above 255 are accepted, zero padding of name ranges is lost, and an empty hours/degrees list raises IndexError. The regular expressions are modelled for ASCII digits; the date/time parsers based on strptime are not modelled."
},
"C44": {
"status": "partial",
"note": "Handlers and entries by name for every history; file names when nothing is closed twice; close_all closes each exactly once in any order. Refuted: a second close raises KeyError and leaves the name behind; failed constructors stay registered."
},
"C45": {
"status": "partial",
"note": "beam count and filter code proved; frames per observation proved for beams 1-4, beam 5 raises IndexError."
},
"C46": {
"status": "partial",
"note": "Position always kept; values right for the streams of C19/C20; refuted for short files and after a corrupted TBX frame. get_first_channel and get_first_frame_count are not modelled."
},
"C47": {
"status": "partial",
"note": "Proved below 10^6 frames per second; refuted above."
},
"C48": {
"status": "partial",
"note": "Half-frame round trip when no leap second lies between the day before the epoch and the frame; half a second late in the half-year after a leap second (C48_half_second_refuted); header limits in C48_header_refuted."
},
"C49": {
"status": "partial",
"note": "Frame size, thread count, frame rate and sample rate of regular recordings; refuted for recordings starting with the last frame of a second, ending within the first second, or with uneven threads."
},
"C50": {
"status": "partial",
"note": "Exact and invertible for fractions of a second below 0.9995; refuted above (one second late). The local offset is a parameter; the time zone rules of the C library are not modelled."
},
"C51": {
"status": "proved",
"note": "Exact arithmetic; astropy's calendar algorithm on days without a leap second."
},
"C52": {
"status": "partial",
"note": "TAI-UTC on days without a leap second; refuted on leap-second days."
},
"C53": {
"status": "partial",
"note": "Every text of every run: dots, boomerang (width 2 on), pingpong (4 on), flow (3 on). Refuted for smaller widths and for stop() racing with the drawing thread. Colours are not modelled."
},
"C54": {
"status": "partial",
"note": "what comes back from every valid project is characterised (C54_what_comes_back); the full round trip holds when settings are not left unset after they were set (C54_round_trip_partial), and is refuted otherwise (carry-over between observations and steps, TBS gain, uniform half-set FEEs, RA rounding to 24 h, missing texts)"
},
"C55": {
"status": "partial",
"note": "validate() is sound for non-negative sample counts and complete up to 1023 steps; refuted: 1024 steps, no steps, negative samples, three metatags"
},
"C56": {
"status": "partial",
"note": "Round trips and nearest-millisecond theorems proved for all inputs up to 2^30 s or 10^12 ms; refuted for astropy quantities (NameError)."
},
"C57": {
"status": "partial",
"note": "Round trips and nearest-millisecond theorems proved in double precision; refuted for the last half millisecond of a second, one-digit offsets and parse_sdf on leap-second days. Named time zones and LST not modelled."
},
"C58": {
"status": "partial",
"note": "refuted parts: wrong-length order, shared polarizations, antennas from 4096 on, unchecked weights"
},
"C59": {
"status": "proved",
"note": "for every program of sort, rephase and append"
},
"C60": {
"status": "partial",
"note": "get_uv_range and stand selection over several integrations refuted, extend unchecked; proved for integrations that keep equally many baselines"
},
"C61": {
"status": "partial",
"note": "the code violates it: append only works where a single visibility is stored; the exact condition is proved"
},
"C62": {
"status": "partial",
"note": "equal intensity refuted for circular (RR+LL = 2I)"
},
"C63": {
"status": "partial",
"note": "several integrations only with the baselines of the first; refuted otherwise"
},
"C64": {
"status": "partial",
"note": "all-or-nothing refuted over several integrations; a data set without polarizations is not moved"
},
"C65": {
"status": "partial",
"note": "Every waterfall and dispersion measure in double precision; refuted: fill with a negative dispersion measure, a single frequency."
},
"C66": {
"status": "partial",
"note": "Every sample characterised for any window size and response; pieces = whole proved for pieces of half windows or responses within a quarter window; refuted: remainder beyond half a window, end without next data, single previous sample."
},
"C67": {
"status": "partial",
"note": "History independence proved; window size proved in exact arithmetic for delays above one sample; refuted for delays up to half a sample and for no dispersion."
},
"C68": {
"status": "partial",
"note": "Read back for complete integrations with one order of baselines and one position per source name; the other cases are refuted with the files they give."
},
"C69": {
"status": "partial",
"note": "For polarizations that follow each other, regular ascending bands of at least two channels and stands up to 999; the other cases are refuted."
},
"C70": {
"status": "proved",
"note": "For the file of every list of complete integrations."
},
"C71": {
"status": "partial",
"note": "Refusals are proved; that a failed set_stokes changes nothing is refuted."
},
"C72": {
"status": "partial",
"note": "Proved for recordings without missing integrations whose time step the reader computes right (shown to be right or one tick too small for every integration time); refuted for read() without a duration and for the step of 0.29 s integrations."
},
"C73": {
"status": "partial",
"note": "Proved with gaps for given numbers of spectra and with durations for complete recordings; refuted after offset(), for gaps in data with another step than 8192 and for read() without a duration of incomplete recordings."
},
"C74": {
"status": "partial",
"note": "Proved for recordings of good frames with steps of at most 1.001 integration times, from the start and after offset(); refuted for damaged and cut-off frames, gaps, backward jumps and files of one frame. Times are exact rationals in the model."
},
"C75": {
"status": "partial",
"note": "Proved: DRX and DRX8 files with up to one frame of junk before them, DR spectrometer, TBX and COR files from their first byte on (TBX and COR: at least 16448 bytes, after any history; no stray sync words) are opened as what they are; any answer is backed by frame marks in the file and the file is rewound. Refuted: short TBX/COR/DRX8 files, a stray sync word in DRX8 data, TBX and DR spectrometer files that start within a frame."
},
"C76": {
"status": "proved",
"note": "Exact arithmetic, the transform as a parameter. The rotation of odd channel counts reads four bytes beyond the result (C76_shift_overread_refuted); it does not affect the values."
},
"C77": {
"status": "partial",
"note": "Means, inequality and refusal proved for every input; stands are matched only if X and Y antennas come in the same order (C77_pairs), refuted otherwise."
},
"C78": {
"status": "proved",
"note": "Exact arithmetic; transform, exp and filter bank weights are parameters. The conditions in the statement are needed: C78_overlap_refuted, C78_overlap_killed, C78_order_refuted, C78_counts_refuted."
},
"C79": {
"status": "proved",
"note": "Exact arithmetic; exp is a parameter. Distinct stands are needed: C79_one_stand_refuted."
},
"C80": {
"status": "partial",
"note": "I, Q of all baselines and all four parameters of auto-correlations without clipping and gain correction (C80_stokes_partial). The rest is false of the code: C80_uv_refuted, C80_clip_refuted, C80_gain_refuted."
},
"C81": {
"status": "partial",
"note": "I, Q of all baselines and all four parameters of auto-correlations when X and Y delays agree (C81_stokes_partial). The rest is false of the code: C81_uv_refuted, C81_delays_refuted."
},
"C82": {
"status": "partial",
"note": "proved for data without a value repeated by half of the numbers; otherwise refuted (fallback on the mean deviation)"
},
"C83": {
"status": "partial",
"note": "total for four numbers or more; bounded by the spread of most numbers unless half are equal, where it is refuted"
},
"C84": {
"status": "partial",
"note": "range, order, scaling, narrowest half for odd counts; refuted for even counts, three points and equal numbers"
},
"C85": {
"status": "partial",
"note": "proved for one list; along axis 1 refuted unless the matrix is square"
},
"C86": {
"status": "partial",
"note": "exact lines and polynomials of order 1 and more; refuted for order 0 and very close points; weighted iteration not modelled"
},
"C87": {
"status": "partial",
"note": "calc_delay on exact numbers. The formula holds whenever a stand up to 256 is in the array; for arrays of higher stands only it is NaN (C87_outriggers_refuted)."
},
"C88": {
"status": "partial",
"note": "Exact numbers; data with as many rows as antennas. No good antenna gives zeros (C88_no_good_refuted); Stokes V against the spectrometer (C88_stokes_v_refuted)."
},
"C89": {
"status": "partial",
"note": "Exact numbers. Straight lines are bent at the ends (C89_smooth_line_refuted) and a window as long as the signal loses one number (C89_smooth_equal_refuted)."
},
"C90": {
"status": "partial",
"note": "Proved with the word in front of the array as a parameter; refuted for data in a single plane and for more than 1024 planes."
},
"C91": {
"status": "partial",
"note": "Proved for visibilities whose cells stay inside the array; far ones refuted."
},
"C92": {
"status": "partial",
"note": "Proved for linear transforms that are parameters of the model; the static normalization refuted."
},
"C93": {
"status": "partial",
"note": "One data set proved; collections and masks refuted."
},
"C94": {
"status": "partial",
"note": "What each scheme hands over is proved; that the object is left alone is refuted for uniform and Briggs weighting, as is a finite beam."
},
"C95": {
"status": "proved",
"note": "minor cycle of deconv.py on exact numbers"
},
"C96": {
"status": "partial",
"note": "Missing: double precision, NaN in the image, the Gaussian fit (offsets at or right of the cutout's start are assumed); refuted at the edges and when nothing is removed (C96_edge_refuted, C96_last_row_refuted, C96_before_first_refuted, C96_nothing_refuted)."
},
"C97": {
"status": "partial",
"note": "Missing: double precision, the simulation. Refuted: a worse turn does not go back (C97_worse_refuted); NameError without a turn (C97_no_turn_refuted)."
},
"C98": {
"status": "partial",
"note": "Counts, bounds, switching off and transparency for all histories; ignore() not switching off and the loss of one of two logs of a second are refuted; keyword-only self in a tracked method is excluded."
},
"C99": {
"status": "partial",
"note": "Kept unless sent, honest and weekly for all interleavings without half-written logs at reading; removal of unparsed logs and double sending refuted."
},
"C100": {
"status": "partial",
"note": "Order of the sources, failure and wholeness under complete transfers for all cases; short transfers, crashes, stale refresh and the lost copy refuted."
},
"C101": {
"status": "partial",
"note": "Round trip for trees in which sections come before the values of their level and are not empty, with names without colon, comment character or leading dots; the other cases are refuted."
},
"C102": {
"status": "proved",
"note": "One-character comments, automatic width."
},
"C103": {
"status": "partial",
"note": "Any declarations, values and paddings; both byte orders. Refuted for a comment with a brace; a short file is completed with zeros (C103_short_file)."
},
"C104": {
"status": "partial",
"note": "Observation files fully, including every truncation. Session files without DR5 and truncation, which are refuted."
},
"C105": {
"status": "partial",
"note": "Any number of commands with data free of NUL and at most 256 bytes; refuted beyond."
},
"C106": {
"status": "partial",
"note": "Members by name, order of observations; refuted for missing members, is_valid and a tarball opened twice in a row."
},
"C107": {
"status": "partial",
"note": "Complete files except DR5; refuted for DR5, short files, str(), stand 0 and the given antennas being changed."
},
"C108": {
"status": "proved",
"note": "All text files that are well formed, complete and wired consistently; floats are kept as texts."
},
"C109": {
"status": "partial",
"note": "Proved when the stand with the cable's number is set like the antenna's stand (or the stand is least attenuated, for higher cable numbers); refuted otherwise: attenuations are applied by cable number. ASP_AT3[n] stores the value of ASP_AT1."
},
"C110": {
"status": "partial",
"note": "Proved: other versions, non-numbers and indices beyond the declared number are refused anywhere in the file. Refuted: index 0, a missing index and antenna 0 change another part; ARB_PORT overwrites the rack; a missing ARB_ID is refused although it has a default."
},
"C111": {
"status": "proved",
"note": "Real arithmetic (standard library reals and their axioms); rounding is not modelled."
},
"C112": {
"status": "partial",
"note": "Every point of the track and the ellipse proved in real arithmetic; refuted: astro.dms declinations, NaN at the ends in double precision."
},
"C113": {
"status": "partial",
"note": "read back and dates proved; weights are lost and integrations too close in single precision are merged (refuted)"
},
"C114": {
"status": "partial",
"note": "proved for stands below 1000 and one frequency setup; otherwise refuted"
},
"C115": {
"status": "partial",
"note": "order by time and stands proved; order by baseline number proved for stands below 256, refuted in general"
},
"C116": {
"status": "proved",
"note": ""
},
"C117": {
"status": "partial",
"note": "What is read from a written file is given exactly; the round trip holds when what one scan sets the later ones set as well; five refutations (values kept from scan to scan)."
},
"C118": {
"status": "partial",
"note": "validate() is equivalent to a separate description of good runs; it answers unless a scan with alternate phase centers has no tuning (ZeroDivisionError, refuted)."
},
"C119": {
"status": "partial",
"note": "One valid session definition per station with the same observations; exactly when they can be made; refuted: a fresh project, a tracked scan without remarks, a run without scans."
},
"C120": {
"status": "partial",
"note": "delivery to files and handlers proved for all histories; refuted: a failed switch of files stops the log, captured warnings ignore the level"
},
"C121": {
"status": "partial",
"note": "matching and undoing proved; refuted: module patterns silence everything"
},
"C122": {
"status": "partial",
"note": "the exact number of copies proved for histories that keep the default handler; refuted: messages appear twice after enabling and still appear after disabling"
},
"C123": {
"status": "proved",
"note": "over the reals; uses the standard library's axioms of the reals"
},
"C124": {
"status": "proved",
"note": "over the reals; uses the standard library's axioms of the reals"
},
"C125": {
"status": "partial",
"note": "proved for all texts without braces, backslashes, newlines and escapes and tags to a depth of ten; refuted: deeper tags, newlines in tags, a text that ends with two braces, an unmatched end"
},
"C126": {
"status": "proved",
"note": "LWA and PSRCAT readers"
},
"C127": {
"status": "proved",
"note": "Floats abstract; names without spaces"
},
"C128": {
"status": "proved",
"note": "Floats abstract; well-formed right ascensions"
},
"C129": {
"status": "partial",
"note": "Short lines, angles out of range and malformed right ascensions are not reported as described: refuted"
},
"C130": {
"status": "proved",
"note": "Constructions have arbitrary outcomes"
},
"C131": {
"status": "partial",
"note": "C131_copied and C131_duration: with -r or -d, for every file, layout and duration. C131_plain_refuted: with neither option nothing is ever written (ValueError in the file name)."
},
"C132": {
"status": "partial",
"note": "C132_aligned_partial: when the position reached is at a first frame. C132_aligned_refuted: in every other case the first frame of the next capture is left out and the split begins with the frame after it."
},
"C133": {
"status": "partial",
"note": "C133_numbers, C133_mcs, C133_formats, C133_order in full; C133_clocks_partial and C133_samples_partial: the MCS millisecond may be 86400000 (C133_midnight_refuted), a sample count comes back only for whole seconds (C133_samples_refuted)."
},
"C134": {
"status": "partial",
"note": "C134_runs for every non-empty sequence, C134_symmetric, C134_statistic; C134_empty_refuted: one run is counted for no values."
},
"C135": {
"status": "partial",
"note": "C135_value, C135_bounds, C135_invariant, C135_columns, C135_spectra in full; C135_rows_partial: rows of square arrays only; C135_rows_refuted and C135_whole_refuted: the number of rows is taken for the number of values summed over."
},
"C136": {
"status": "partial",
"note": "C136_moments; C136_restored_partial: when limits are returned. C136_restored_refuted, C136_left_refuted: after an exception numpy errors stay set to raise."
},
"C137": {
"status": "proved",
"note": "C137_deconvolved, for every broadening function of one value per time that does not vanish altogether, on exact numbers."
},
"C138": {
"status": "partial",
"note": "C138_best and C138_range in full; C138_no_solution_refuted: the RuntimeError is never raised, an empty range gives UnboundLocalError and no numeric figure of merit KeyError."
},
"C139": {
"status": "partial",
"note": "Proved for a threshold above the least value of the convolved image; otherwise a flat image gives an IndexError (refuted).  Convolution and background are not modelled."
},
"C140": {
"status": "partial",
"note": "Refuted: the offsets of the center along the two axes are exchanged; right where they agree."
},
"C141": {
"status": "partial",
"note": "The statuses are right for stands of the table; refuted: the given antennas are changed, and stand 0 gets the status of the last stand."
},
"C142": {
"status": "proved",
"note": "For dimensions that are not negative; with a zero dimension only the length check is stated."
},
"C143": {
"status": "partial",
"note": "Refuted for DR5, proved for all other subsystems."
},
"C144": {
"status": "partial",
"note": "Refuted for every status."
},
"C145": {
"status": "partial",
"note": "Proved for texts and for numbers of any type without zero bytes; refuted for any other number but 0: it is read as 0."
},
"C146": {
"status": "partial",
"note": "C146_loaded in full; names proved when names and indices are distinct and no name starts with a digit; refuted for a name of two indices."
},
"C147": {
"status": "partial",
"note": "Along one axis. The tiles are contiguous, half a window wide, with their centers to a quarter of a pixel; that they are a window wide and overlap, as documented, is refuted."
},
"C148": {
"status": "partial",
"note": "In rational numbers with the median as a parameter; tiles that are not constant have a value. Refuted for constant tiles, whose value is nan."
},
"C149": {
"status": "partial",
"note": "For writers of data sets with baselines and channels. Refuted for a second polarization of a time that is there already, which is a ValueError."
},
"C150": {
"status": "partial",
"note": "With include_auto, so without a cut of the baselines. Refuted for set 0, which is the last set, and for the writer staying as it was, since its own data sets are sorted."
},
"C151": {
"status": "partial",
"note": "The level is kept away from the corners, the range away from the edges. Refuted at the corners, where the result is zero whatever the tiles are."
},
"C152": {
"status": "partial",
"note": "For real signals in rational numbers; weights and factors of the transform are parameters. Refuted for a signal of one sample, which is repeated instead of refused."
}
}