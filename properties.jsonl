{"id": "C01", "title": "Frame buffer emits timestamps in strictly increasing order", "statement": "Between two resets, the timestamps of the frame sets returned by successive get() calls on a frame buffer are strictly increasing, whatever the order in which frames are appended.", "quantifier": "every configuration with at least one ring segment, every sequence of append()/put() and get() calls, every frame content", "why_tests_cant": "the ordering depends on arbitrary arrival orders and interleavings of appends and gets, which tests can only sample", "anchors": ["lsl/reader/buffer.py:FrameBufferBase.append", "lsl/reader/buffer.py:FrameBufferBase.get", "lsl/reader/buffer.py:FrameBufferBase.peek"]}
{"id": "C02", "title": "Late frames are dropped, counted and never re-emitted", "statement": "A frame whose timestamp is not newer than the last emitted timestamp is not stored, does not change any other state, and increases the dropped counter by exactly one; a frame that is newer is stored and counted nowhere.  Hence no timestamp is emitted twice by get() between two resets.", "quantifier": "every buffer history of append/get and every frame", "why_tests_cant": "needs all histories, including duplicates arriving arbitrarily late", "anchors": ["lsl/reader/buffer.py:FrameBufferBase.append", "lsl/reader/buffer.py:FrameBufferBase.get"]}
{"id": "C03", "title": "Frame buffer conserves frames", "statement": "At any time, every real frame given to append() has exactly one fate: dropped (counted in dropped), still buffered, or returned by exactly one get()/flush() step; the numbers add up: appended = dropped + buffered + returned real frames.  No real frame is altered or invented; only invalid, zero-filled frames are added.", "quantifier": "every history of append/get/flush operations on one buffer", "why_tests_cant": "an accounting identity over unbounded histories", "anchors": ["lsl/reader/buffer.py:FrameBufferBase.append", "lsl/reader/buffer.py:FrameBufferBase.get", "lsl/reader/buffer.py:FrameBufferBase.flush", "lsl/reader/buffer.py:FrameBufferBase._get_missing_list"]}
{"id": "C04", "title": "An emitted frame set is complete: one frame per expected source", "statement": "Every frame set returned by get() contains exactly one frame for each expected (beam,tuning,pol)/(stand,stand,channel)/thread/channel of the configuration, real if one was received, otherwise an invalid zero frame carrying the emitted timestamp and the missing identifier, and missing grows by the number of zero frames.", "quantifier": "every buffer state reachable by appends and gets, all five frame types", "why_tests_cant": "depends on every possible pattern of missing and duplicated frames", "anchors": ["lsl/reader/buffer.py:FrameBufferBase.get", "lsl/reader/buffer.py:FrameBufferBase._get_missing_list", "lsl/reader/buffer.py:DRXFrameBuffer.create_fill", "lsl/reader/buffer.py:CORFrameBuffer.create_fill", "lsl/reader/buffer.py:VDIFFrameBuffer.create_fill", "lsl/reader/buffer.py:TBXFrameBuffer.create_fill"]}
{"id": "C05", "title": "flush() drains the buffer completely and in time order", "statement": "Exhausting flush() returns every buffered timestamp exactly once, leaves the buffer empty, and yields the timestamps in increasing order, so that a timestamp emitted by flush() is never accepted again.", "quantifier": "every reachable buffer state", "why_tests_cant": "depends on arrival order of all buffered timestamps", "anchors": ["lsl/reader/buffer.py:FrameBufferBase.flush"]}
{"id": "C06", "title": "Back-pressure: get() releases nothing until the ring is full and bounds memory", "statement": "get() returns None and changes nothing exactly when fewer than nsegments timestamps are buffered; otherwise it removes exactly one timestamp, the oldest.  If at most one new timestamp is introduced between two gets the number of buffered timestamps never exceeds nsegments.", "quantifier": "every history", "why_tests_cant": "bound over unbounded histories", "anchors": ["lsl/reader/buffer.py:FrameBufferBase.peek", "lsl/reader/buffer.py:FrameBufferBase.get", "lsl/reader/buffer.py:FrameBufferBase.filled"]}
{"id": "C07", "title": "Expected-frame tables match the advertised frame count", "statement": "For each buffer type, the number of frames that makes a set complete equals the number of distinct expected identifiers (beams x tunings x pols, n(n+1)/2 baselines x channels, threads, channels) whenever the configuration lists contain no repeats.", "quantifier": "every configuration", "why_tests_cant": "all list lengths and contents", "anchors": ["lsl/reader/buffer.py:DRXFrameBuffer.get_max_frames", "lsl/reader/buffer.py:CORFrameBuffer.get_max_frames", "lsl/reader/buffer.py:VDIFFrameBuffer.get_max_frames", "lsl/reader/buffer.py:TBXFrameBuffer.get_max_frames"]}
{"id": "C08", "title": "reset() returns a buffer to its initial behaviour", "statement": "After reset() a frame buffer accepts and emits exactly the frames a freshly built buffer of the same configuration would.", "quantifier": "every reachable state and every subsequent history, all five frame types", "why_tests_cant": "history-dependent equivalence", "anchors": ["lsl/reader/buffer.py:FrameBufferBase.reset", "lsl/reader/buffer.py:DRXFrameBuffer.__init__"]}
{"id": "C09", "title": "Reordered output is a stable sort of the frame set", "statement": "With reorder enabled the emitted list is a permutation of the un-reordered list, sorted by (stand,pol), (beam,tuning,pol) or scalar id order, and equal ids keep arrival order.", "quantifier": "every frame set and id shape", "why_tests_cant": "all permutations", "anchors": ["lsl/reader/buffer.py:_cmp_frames", "lsl/reader/buffer.py:FrameBufferBase.get"]}
{"id": "C10", "title": "A file position saver always restores the position", "statement": "Whatever reads and seeks happen inside a FilePositionSaver block, and whether or not it raises, the file position afterwards is the one before, and the content is unchanged.", "quantifier": "every file, position, and sequence of operations, including those ending in an exception", "why_tests_cant": "all operation sequences", "anchors": ["lsl/reader/utils.py:FilePositionSaver"]}
{"id": "C11", "title": "A split file behaves like the concatenation of its parts", "statement": "read/seek/tell/size on a SplitFileWrapper give the same results as on one ordinary file holding the concatenated parts, including reads that span part boundaries, relative seeks and seeks from the end.", "quantifier": "every list of parts, every sequence of reads and seeks", "why_tests_cant": "boundary alignment between arbitrary part sizes and read sizes", "anchors": ["lsl/reader/utils.py:SplitFileWrapper"]}
{"id": "C12", "title": "DRX frames decode to exactly the header fields and samples that were recorded", "statement": "Reading a well-formed 4128-byte DRX frame yields the recorded identifier, frame count, seconds, decimation, time offset, time tag, tuning word, flags and all 4096 complex 4+4-bit samples, and consumes exactly 4128 bytes.", "quantifier": "every header field value in range and every sample sequence", "why_tests_cant": "2^(33000) possible frames", "anchors": ["lsl/reader/drx.cpp:read_drx", "lsl/reader/gofast.cpp:initLWALUTs", "lsl/reader/drx.py:read_frame"]}
{"id": "C13", "title": "Reading a DRX stream terminates and never misreports: EOF and sync errors", "statement": "On any byte stream a DRX/DRX8 read either returns a frame whose sync word is correct, or raises EOF when fewer than a frame's bytes remain, or raises a sync error after consuming exactly one frame size; reading a concatenation of well-formed frames returns them all, in order, and then EOF.", "quantifier": "every byte stream and position", "why_tests_cant": "all byte streams", "anchors": ["lsl/reader/drx.cpp:read_drx", "lsl/reader/drx8.cpp:read_drx8", "lsl/reader/drx.py:read_frame"]}
{"id": "C14", "title": "DRX8 frames decode to what was recorded", "statement": "As C12 for the 8224-byte 8+8-bit format: all fields and 4096 complex 8-bit two's complement samples.", "quantifier": "every field value and sample sequence", "why_tests_cant": "all frames", "anchors": ["lsl/reader/drx8.cpp:read_drx8", "lsl/reader/gofast.cpp:initLWALUTs"]}
{"id": "C15", "title": "DRX identifiers round-trip", "statement": "For beam 0-7, tuning 0-7, pol 0-1 the packed identifier decodes to the same (beam,tuning,pol); DRX and DRX8 identifiers are never confused; distinct triples have distinct identifiers.", "quantifier": "all identifier triples and all bytes", "why_tests_cant": "exhaustive over ids plus combination with frames", "anchors": ["lsl/reader/drx.py:FrameHeader.parse_id", "lsl/reader/drx8.py:FrameHeader.parse_id", "lsl/reader/buffer.py:DRXFrameBuffer.create_fill", "lsl/sim/drx.py:SimFrame._update"]}
{"id": "C16", "title": "Simulated DRX frames read back as written", "statement": "A valid simulated DRX frame written to a file is read back with the same identifier, decimation, time offset, time tag, central frequency (tuning word), flags and samples (after rounding and clipping to 4 bits).", "quantifier": "every valid simulated frame", "why_tests_cant": "all header values and samples", "anchors": ["lsl/sim/drx.py:frame_to_frame", "lsl/sim/drx.py:SimFrame", "lsl/reader/drx.cpp:read_drx"]}
{"id": "C17", "title": "DRX sample quantisation is idempotent and saturating", "statement": "Quantising samples for output rounds to the nearest integer, saturates at [-8,7], and is the identity on values already representable; it never wraps a large positive sample to a negative one.", "quantifier": "every sample value", "why_tests_cant": "infinite sample domain", "anchors": ["lsl/sim/drx.py:frame_to_frame"]}
{"id": "C18", "title": "COR frames decode to what was recorded; autocorrelations are Hermitian", "statement": "Reading a well-formed COR frame yields its header, stands, and visibilities; when both stands are equal the returned YX product is the conjugate of XY; exactly the frame's bytes are consumed.", "quantifier": "every frame of each supported channel count", "why_tests_cant": "all frames", "anchors": ["lsl/reader/cor.cpp:read_cor", "lsl/reader/cor.py:read_frame"]}
{"id": "C19", "title": "COR channel-count auto-detection finds the right frame size", "statement": "Starting from any state of the process-wide cache, reading a file of well-formed COR frames that all have one supported channel count (33/72/112/192) returns the frames with that channel count, in order.", "quantifier": "every supported channel count, every prior cache state, every file content", "why_tests_cant": "hidden process-wide state carried over between files", "anchors": ["lsl/reader/cor.cpp:read_cor"]}
{"id": "C20", "title": "TBX frames decode to what was recorded and mode auto-detection works", "statement": "Starting from any state of the process-wide cache, reading a file of well-formed TBX frames of a supported (stand count, channel count) mode returns all of them in order; unsupported modes raise a sync error and leave the position unchanged.", "quantifier": "every mode, prior cache state, and file content", "why_tests_cant": "hidden process-wide state carried over between files", "anchors": ["lsl/reader/tbx.cpp:read_tbx_impl", "lsl/reader/tbx.py:read_frame"]}
{"id": "C21", "title": "VDIF header fields decode to what was recorded", "statement": "Every VDIF header word assembled from in-range fields is decoded to the same fields (legacy/invalid flags, seconds, epoch, frame number, length, channels, version, station, thread, bits, complex flag).", "quantifier": "all in-range header fields", "why_tests_cant": "2^128 headers", "anchors": ["lsl/reader/vdif.cpp:read_vdif_impl"]}
{"id": "C22", "title": "VDIF samples written by the simulator/writer read back exactly", "statement": "A VDIF frame written with 1, 2, 4, 8 (\u2026) bits per sample reads back with the same samples, bits, station, seconds and frame number.", "quantifier": "every supported bit depth and every in-range sample list whose size is a whole number of words", "why_tests_cant": "all sample lists and header values", "anchors": ["lsl/writer/vdif.py:Frame", "lsl/reader/vdif.cpp:parse_vdif_Nbit"]}
{"id": "C23", "title": "DR spectrometer frames decode to the recorded products", "statement": "Reading a well-formed spectrometer frame returns, for each tuning, exactly the products announced by its format byte, in the recorded order, and consumes exactly the advertised frame size; the decoder never reads past the frame's data.", "quantifier": "every format byte and every data array", "why_tests_cant": "all format bytes and sizes", "anchors": ["lsl/reader/drspec.cpp:read_drspec", "lsl/reader/drspec.py:FrameHeader.data_products"]}
{"id": "C24", "title": "Time tags survive conversion to a timestamp and back", "statement": "Converting a 196 MHz time tag to a timestamp and reading its time tag back gives the same integer; timestamps order the same way as their time tags.", "quantifier": "every non-negative time tag, with any representation error below 0.005 ticks", "why_tests_cant": "10^18 tags", "anchors": ["lsl/reader/base.py:FrameTimestamp.from_dp_timetag", "lsl/reader/base.py:FrameTimestamp.dp_timetag"]}
{"id": "C25", "title": "Timestamp splitting keeps fractional seconds in [0,1) and preserves the instant", "statement": "Building a timestamp from integer and fractional seconds preserves their sum and normalises the fraction to [0,1); the pulsar MJD split gives a day, a second of day in [0,86400) and a fraction in [0,1) that add up to the instant.", "quantifier": "all inputs", "why_tests_cant": "boundary cases at exact negative integers and midnight", "anchors": ["lsl/reader/base.py:FrameTimestamp.__init__", "lsl/reader/base.py:FrameTimestamp.pulsar_mjd"]}
{"id": "C26", "title": "MJD/MPM and calendar time convert consistently", "statement": "datetime -> (MJD, milliseconds past midnight) -> datetime is the identity at millisecond resolution for every date, and (MJD,MPM) -> datetime -> (MJD,MPM) is the identity for 0 <= MPM < 86400000; the MJD computed is the proleptic Gregorian day number.", "quantifier": "every calendar date in the supported range and every millisecond", "why_tests_cant": "millions of days; leap year rules", "anchors": ["lsl/common/mcs.py:mjdmpm_to_datetime", "lsl/common/mcs.py:datetime_to_mjdmpm"]}
{"id": "C27", "title": "Frequency tuning words round-trip", "statement": "word_to_freq and freq_to_word are inverse on all 32-bit tuning words, and the frequency error of a quantised frequency is at most half a tuning step.", "quantifier": "all 2^32 words and all frequencies below fS", "why_tests_cant": "2^32 words, continuum of frequencies", "anchors": ["lsl/common/ndp.py:freq_to_word", "lsl/common/ndp.py:word_to_freq"]}
{"id": "C28", "title": "Delay and gain words round-trip within one quantisation step", "statement": "A delay converted to the digital processor's 16-bit word and back differs by less than one fine step (1/16 sample) and never exceeds it; a gain in [0,1] converted and back differs by less than 1/32767; byte swapping is an involution.", "quantifier": "all delays within range, all gains", "why_tests_cant": "continuum", "anchors": ["lsl/common/ndp.py:delay_to_ndpd", "lsl/common/ndp.py:ndpd_to_delay", "lsl/common/ndp.py:gain_to_ndpg", "lsl/common/ndp.py:ndpg_to_gain", "lsl/common/mcs.py:_two_byte_swap"]}
{"id": "C29", "title": "Flat-to-multidimensional conversion preserves order and is row-major", "statement": "flat_to_multi(list, shape) returns nested lists of exactly the given shape whose row-major flattening is the input, whenever the sizes agree.", "quantifier": "every shape and list", "why_tests_cant": "all ranks and sizes", "anchors": ["lsl/common/mcs.py:flat_to_multi"]}
{"id": "C30", "title": "DRX file reading returns every sample once, in time order", "statement": "For a DRX file that contains, for every timestamp in an unbroken sequence, one frame per tuning/polarisation, the arrays returned by successive read() calls (any durations), concatenated, are exactly the recorded samples of each tuning/polarisation in order, with nothing lost or repeated at the end of the file.", "quantifier": "every number of timestamps, every per-timestamp order, every sequence of read durations", "why_tests_cant": "all files and read schedules", "anchors": ["lsl/reader/ldp.py:DRXFile.read", "lsl/reader/ldp.py:LDPFileBase.read_sequence"]}
{"id": "C31", "title": "DRX alignment finds the first valid frame", "statement": "Opening a file that starts with junk positions the reader at the first valid frame after the junk, without skipping a valid frame.", "quantifier": "every junk prefix containing no sync word", "why_tests_cant": "all prefixes", "anchors": ["lsl/reader/ldp.py:DRXFile._ready_file"]}
{"id": "C32", "title": "The size-limited cache stays within its limit and keeps what was just used", "statement": "After any completed open() the cache holds at most max_size bytes unless a single file is larger, evicts oldest files first, never removes files when unlimited, and the file just opened is available.", "quantifier": "every sequence of cache operations", "why_tests_cant": "all histories and file sizes", "anchors": ["lsl/misc/file_cache.py:FileCache", "lsl/misc/file_cache.py:MemoryCache"]}
{"id": "C33", "title": "Memory files behave like ordinary files", "statement": "Writing in 'w' then reading returns what was written; opening in append mode appends after existing content; truncation empties it.", "quantifier": "every sequence of opens, writes, reads", "why_tests_cant": "all histories", "anchors": ["lsl/misc/file_cache.py:MemoryFile", "lsl/misc/file_cache.py:MemoryCache.open"]}
{"id": "C34", "title": "Locks give mutual exclusion", "statement": "At no point of any interleaving do two different holders both hold the same FileLock; a release by one holder lets another acquire; a crash of the holder releases the lock.", "quantifier": "every schedule of acquires, releases, unlinks and crashes of any number of processes", "why_tests_cant": "all interleavings", "anchors": ["lsl/misc/file_lock.py:FileLock", "lsl/misc/file_lock.py:MemoryLock"]}
{"id": "C35", "title": "Progress bars render at a fixed width", "statement": "For every amount between 0 and max, show() renders a string of exactly span characters, monotone in amount; inc/dec keep the amount within what the operations imply.", "quantifier": "every max, amount, span", "why_tests_cant": "all values", "anchors": ["lsl/common/progress.py:ProgressBar.show", "lsl/common/progress.py:ProgressBarPlus.show", "lsl/common/progress.py:DownloadBar.show"]}
{"id": "C36", "title": "Configuration changes are tracked and temporary settings are undone", "statement": "After any sequence of set() calls the set of pending changes is exactly the parameters whose value differs from the value first loaded, saving happens iff there are pending changes or the version changed, and a temporary setting restores the previous value on exit even after an exception.", "quantifier": "every sequence of set/set_temp/save/on-disk modifications", "why_tests_cant": "all histories", "anchors": ["lsl/config.py:LSLConfigContainer"]}
{"id": "C37", "title": "Configuration files round-trip", "statement": "Writing a configuration and loading it again gives the same parameter values.", "quantifier": "every configuration with representable values", "why_tests_cant": "all values", "anchors": ["lsl/config.py:LSLConfigContainer.__str__", "lsl/config.py:LSLConfigContainer._load_config"]}
{"id": "C38", "title": "Baseline numbering is a bijection", "statement": "get_baselines lists each unordered pair of antennas exactly once (with autocorrelations iff requested) in row-major order, n(n-1)/2 or n(n+1)/2 in number, and antennas_to_baseline / baseline_to_antennas are inverse on it.", "quantifier": "every antenna list and every pair", "why_tests_cant": "all sizes", "anchors": ["lsl/correlator/uvutils.py:get_baselines", "lsl/correlator/uvutils.py:baseline_to_antennas", "lsl/correlator/uvutils.py:antennas_to_baseline"]}
{"id": "C39", "title": "Packed baseline numbers in output files are unambiguous", "statement": "Merging two antenna numbers into a baseline code and splitting it returns the same antennas, for every pair the file format supports; two different pairs never share a code.", "quantifier": "every antenna pair in range, each format", "why_tests_cant": "all pairs up to 65535^2", "anchors": ["lsl/writer/fitsidi.py:merge_baseline", "lsl/writer/fitsidi.py:split_baseline", "lsl/writer/uvfits.py:merge_baseline", "lsl/writer/uvfits.py:split_baseline", "lsl/writer/measurementset.py:merge_baseline"]}
{"id": "C40", "title": "Sexagesimal conversions are exact inverses and stay in range", "statement": "Converting an angle to degrees/minutes/seconds (or hours) and back gives the same angle, with minutes and seconds in range; adding hour angles updates hours, minutes and seconds.", "quantifier": "every angle in exact arithmetic", "why_tests_cant": "continuum of angles", "anchors": ["lsl/astro.py:_float_to_sexa", "lsl/astro.py:deg_to_dms", "lsl/astro.py:dms_to_deg", "lsl/astro.py:deg_to_hms", "lsl/astro.py:hms_to_deg", "lsl/astro.py:add_hms"]}
{"id": "C41", "title": "Angle and hour range reduction", "statement": "range_degrees and range_hours return a value in the documented range that differs from the input by a whole number of turns/days.", "quantifier": "every value", "why_tests_cant": "continuum", "anchors": ["lsl/astro.py:range_degrees", "lsl/astro.py:range_hours"]}
{"id": "C42", "title": "Day of week is right for every instant", "statement": "get_day_of_week returns the civil weekday of the date, for every date and every time of day.", "quantifier": "every instant", "why_tests_cant": "all days and times of day, including exact midnight", "anchors": ["lsl/astro.py:get_day_of_week"]}
{"id": "C43", "title": "Command-line range lists expand to the documented values", "statement": "Integer, baseline and host-name lists with ranges expand to exactly the listed values; malformed input is rejected.", "quantifier": "every argument string", "why_tests_cant": "all strings", "anchors": ["lsl/misc/parser.py:csv_int_list", "lsl/misc/parser.py:csv_baseline_list", "lsl/misc/parser.py:csv_hostname_list"]}
{"id": "C44", "title": "Open-file registry tracks exactly the open data files", "statement": "After any sequence of opens and closes the registry contains exactly the handlers that are open; close_all closes each exactly once.", "quantifier": "every sequence of opens/closes", "why_tests_cant": "all histories", "anchors": ["lsl/reader/ldp.py:_LDPFileRegistry"]}
{"id": "C45", "title": "Describing a DRX stream counts what is there and does not move the file", "statement": "On a stream of well-formed DRX frames, get_beam_count returns the number of distinct beams and get_frames_per_obs the number of distinct identifiers per beam among the first 32 frames; the filter code is the one whose rate times the decimation is fS; the file position is unchanged afterwards, also when an error is raised.", "quantifier": "every stream of frames and every position", "why_tests_cant": "all frame contents and orders of 32 frames", "anchors": ["lsl/reader/drx.py:get_beam_count", "lsl/reader/drx.py:get_frames_per_obs", "lsl/reader/drx.py:FrameHeader.filter_code"]}
{"id": "C46", "title": "Describing a COR or TBX stream", "statement": "get_frame_size, get_channel_count and get_frames_per_obs return the frame size, the number of channels and the number of frames per observation of the stream at the current position, and leave the position unchanged.", "quantifier": "every stream, prior process state and position", "why_tests_cant": "all streams and histories of the process-wide cache", "anchors": ["lsl/reader/cor.py:get_frame_size", "lsl/reader/cor.py:get_frames_per_obs", "lsl/reader/cor.py:get_channel_count", "lsl/reader/tbx.py:get_frame_size", "lsl/reader/tbx.py:get_frames_per_obs"]}
{"id": "C47", "title": "VDIF frames are buffered in time order", "statement": "The VDIF ring buffer orders frames by second and frame number: a frame of an earlier second, or of the same second with a lower number, always comes out first, and only frames of equal second and number are combined.", "quantifier": "every pair of frames, with every frame number the format allows", "why_tests_cant": "2^54 header times", "anchors": ["lsl/reader/buffer.py:VDIFFrameBuffer.get_figure_of_merit"]}
{"id": "C48", "title": "VDIF frame times survive writing and reading", "statement": "The time of a VDIF frame written for a given UNIX time reads back as the same time, for every date and across leap seconds.", "quantifier": "every epoch, second and frame number", "why_tests_cant": "all half-year epochs, leap seconds", "anchors": ["lsl/writer/vdif.py:Frame._set_epoch", "lsl/reader/vdif.py:FrameHeader.time"]}
{"id": "C49", "title": "Describing a VDIF stream", "statement": "get_frame_size, get_thread_count, get_frames_per_second and get_sample_rate return the frame size, number of threads, frame rate and sample rate of the recording at the current position, and leave the position unchanged.", "quantifier": "every regular recording: any rate, threads, start frame and length", "why_tests_cant": "all streams and start points", "anchors": ["lsl/reader/vdif.py:get_frame_size", "lsl/reader/vdif.py:get_thread_count", "lsl/reader/vdif.py:get_frames_per_second", "lsl/reader/vdif.py:get_sample_rate"]}
{"id": "C50", "title": "Local-time conversion is exact and invertible", "statement": "date_to_zonedate gives the calendar time the given number of seconds away, and zonedate_to_date gives the original time back, across day, month and year ends.", "quantifier": "every calendar time and offset", "why_tests_cant": "all dates, fractions of a second and offsets", "anchors": ["lsl/astro.py:date_to_zonedate", "lsl/astro.py:zonedate_to_date"]}
{"id": "C51", "title": "Julian day conversions", "statement": "Julian days, modified Julian days and seconds convert to each other and back exactly; the Julian day of a calendar time counts days and is refused before the modified Julian epoch.", "quantifier": "every value and every calendar time", "why_tests_cant": "continuum of times", "anchors": ["lsl/astro.py:jd_to_mjd", "lsl/astro.py:mjd_to_jd", "lsl/astro.py:sec_to_jd", "lsl/astro.py:jd_to_sec", "lsl/astro.py:get_julian_day"]}
{"id": "C52", "title": "leap_secs returns TAI-UTC", "statement": "leap_secs returns the number of seconds by which TAI is ahead of UTC at the given time, and refuses times before 1972.", "quantifier": "every time and every history of leap seconds", "why_tests_cant": "future leap seconds, all times of leap-second days", "anchors": ["lsl/astro.py:leap_secs"]}
{"id": "C53", "title": "Busy indicators draw every text at the fixed width", "statement": "However long a busy indicator runs, each text it draws has the same number of characters, with the dots or the mark where its style puts it; stop() ends it from any state.", "quantifier": "every message, number of dots, width, style, number of texts and interleaving of stop() with the drawing thread", "why_tests_cant": "unbounded runs and all schedules", "anchors": ["lsl/common/busy.py:BusyIndicator", "lsl/common/busy.py:BusyIndicatorPlus"]}
{"id": "C54", "title": "Session definition files round-trip", "statement": "A project that render() accepts is read back by parse_sdf() with every observation, step, setting, interval and text as it was (coordinates to nine decimals); unknown lines make no difference; anything unreadable is an error about that.", "quantifier": "every valid project: any number of observations, steps and settings", "why_tests_cant": "unbounded numbers of observations and steps, all combinations of settings", "anchors": ["lsl/common/sdf.py:Project.render", "lsl/common/sdf.py:parse_sdf", "lsl/common/sdf.py:_parse_create_obs_object"]}
{"id": "C55", "title": "Session validation is exact", "statement": "Session.validate() returns True exactly for sessions within the limits of the instrument: identifiers, tunings, filters, steps and settings in range, data that fits a recorder unit, one kind of observations and no two at the same time.", "quantifier": "every session: any number of observations with any settings", "why_tests_cant": "all combinations of observations and times", "anchors": ["lsl/common/sdf.py:Session.validate", "lsl/common/sdf.py:Observation._validate_asp", "lsl/common/sdf.py:DRX.validate", "lsl/common/sdf.py:Stepped.validate", "lsl/common/sdf.py:BeamStep.validate"]}
{"id": "C56", "title": "Durations are kept to the millisecond", "statement": "The duration of an observation reads back as it was set, to the nearest millisecond: setting it to its own text changes nothing, hours:minutes:seconds texts, timedeltas, numbers and quantities of seconds are taken to the nearest millisecond, and parse_sdf() restores the duration in the file.", "quantifier": "every duration and every way to write it", "why_tests_cant": "all millisecond counts and texts in double precision", "anchors": ["lsl/common/sdf.py:Observation.duration", "lsl/common/sdf.py:_parse_create_obs_object"]}
{"id": "C57", "title": "Start times are kept to the millisecond", "statement": "The start of an observation reads back as it was set, to the nearest millisecond: setting it to its own text changes nothing, dates and times with or without an offset from UTC are taken as that instant, and parse_sdf() restores the day and millisecond in the file.", "quantifier": "every instant of every day and every way to write it", "why_tests_cant": "all days and milliseconds in double precision, leap-second days", "anchors": ["lsl/common/sdf.py:Observation.start", "lsl/common/_sdf_utils.py:parse_time", "lsl/common/sdf.py:_parse_create_obs_object", "lsl/common/mcs.py:mjdmpm_to_datetime"]}
{"id": "C58", "title": "Visibilities stay with their baselines", "statement": "A visibility data set is a table: each row a baseline with its uvw coordinates and the data, weights and mask of every polarization. Sorting rearranges whole rows into the order of the baselines (or the one asked for); a uv range or an antenna selection is a new data set of exactly the rows within the limits or between the selected antennas, in their order; appending a polarization adds or replaces its cell in every row; a call that fails leaves the table as it was.", "quantifier": "every data set, order, limits and selection", "why_tests_cant": "all tables, orders and selections", "anchors": ["lsl/imaging/data.py:VisibilityDataSet.sort", "lsl/imaging/data.py:VisibilityDataSet.append", "lsl/imaging/data.py:VisibilityDataSet.get_uv_range", "lsl/imaging/data.py:VisibilityDataSet.get_antenna_subset", "lsl/imaging/data.py:PolarizationDataSet.sort", "lsl/imaging/data.py:PolarizationDataSet.subset"]}
{"id": "C59", "title": "Copies of visibility data are independent", "statement": "A copy of a data set has the same table, and whatever is then done to one of the two (sorting, rephasing, appending, in any number and order) leaves the other as it was; the same holds for selections.", "quantifier": "every data set and every history of calls", "why_tests_cant": "unbounded histories", "anchors": ["lsl/imaging/data.py:VisibilityDataSet.copy", "lsl/imaging/data.py:PolarizationDataSet.copy"]}
{"id": "C60", "title": "Integrations in a VisibilityData", "statement": "No two integrations appended to a VisibilityData have the same date, and all have the size of the first; sort() puts them in the order of their dates and each by baseline; copy(), get_uv_range() and get_antenna_subset() do to every integration what the call of the same name does to one.", "quantifier": "every sequence of data sets", "why_tests_cant": "unbounded sequences", "anchors": ["lsl/imaging/data.py:VisibilityData"]}
{"id": "C61", "title": "Adding visibilities to a polarization", "statement": "append() and extend() of a polarization add visibilities, each with its weight (one) and mask (False), to what is there.", "quantifier": "every number of visibilities and channels", "why_tests_cant": "all sizes and histories of calls", "anchors": ["lsl/imaging/data.py:PolarizationDataSet.append", "lsl/imaging/data.py:PolarizationDataSet.extend"]}
{"id": "C62", "title": "Changing the polarization basis loses nothing", "statement": "convert_to_stokes, convert_to_linear and convert_to_circular make new data sets with the products of each baseline and channel, with averaged weights and joined masks; linear to Stokes and back gives the visibilities exactly; the intensity is the same in every basis; data that cannot be converted is refused.", "quantifier": "every data set", "why_tests_cant": "all visibilities, weights and masks", "anchors": ["lsl/imaging/utils.py:convert_to_stokes", "lsl/imaging/utils.py:convert_to_linear", "lsl/imaging/utils.py:convert_to_circular"]}
{"id": "C63", "title": "Gains act on baselines", "statement": "scale_data multiplies the visibilities of baseline (i, j) by conj(g_j) g_i and leaves everything else and its argument alone; scaling twice is scaling by the products; unit gains change nothing; every integration is scaled by its own baselines.", "quantifier": "every data set and gains", "why_tests_cant": "all tables and gains", "anchors": ["lsl/sim/vis.py:scale_data"]}
{"id": "C64", "title": "Moving the phase center", "statement": "rephase() gives every baseline the coordinates and visibilities of the new phase center; moving there and back restores the visibilities; a center that is not up is an error that changes nothing, and with ignore_errors leaves just that integration as it was.", "quantifier": "every data set, pair of centers and history", "why_tests_cant": "all tables and centers", "anchors": ["lsl/imaging/data.py:VisibilityDataSet.rephase", "lsl/imaging/data.py:VisibilityData.rephase"]}
{"id": "C65", "title": "Incoherent dedispersion moves every channel by its delay", "statement": "incoherent() moves each channel of a waterfall back by the dispersion delay relative to the highest frequency, rounded to integrations: with boundary='wrap' cyclically, so that dedispersing with the opposite dispersion measure gives the waterfall back; with 'fill' the samples that were not recorded become the fill value. A shape or boundary that does not fit is an error.", "quantifier": "every waterfall, frequencies, dispersion measure and integration time", "why_tests_cant": "all waterfalls and dispersion measures, in double precision", "anchors": ["lsl/misc/dedispersion.py:delay", "lsl/misc/dedispersion.py:incoherent"]}
{"id": "C66", "title": "Coherent dedispersion does not show its windows", "statement": "coherent() returns times and samples of the length of its input in which each sample that could be made is the input convolved with the response of the interstellar medium and the others are zero; dedispersing a stream in pieces, each with its neighbours as previous and next data, gives what dedispersing it at once gives; too little data is an error.", "quantifier": "every stream, cut and response", "why_tests_cant": "unbounded streams and all ways to cut them", "anchors": ["lsl/misc/dedispersion.py:coherent"]}
{"id": "C67", "title": "Coherent dedispersion chooses its window and remembers it", "statement": "The window is the smallest power of two that covers the delay across the band on both sides of it, for every dispersion measure; the result of a call depends neither on the calls made before it nor on caching.", "quantifier": "every frequency, sample rate and dispersion measure, every history of calls", "why_tests_cant": "unbounded histories, all dispersion measures", "anchors": ["lsl/misc/dedispersion.py:get_coherent_sample_size", "lsl/misc/dedispersion.py:coherent"]}
{"id": "C68", "title": "A FITS IDI file gives back the visibilities that were written", "statement": "get_data_set() on a file made by the FITS IDI writers returns each integration that was added: its date, phase center and integration time, and for each baseline the coordinates and the visibilities and weights of every channel and polarization, whatever the order of the calls and of the baselines. Data that is not there does not become other data.", "quantifier": "every list of integrations, stands, polarizations, bands and order of calls", "why_tests_cant": "all sizes, orders and file kinds", "anchors": ["lsl/writer/fitsidi.py:Idi.write", "lsl/writer/fitsidi.py:WriterBase.add_data_set", "lsl/imaging/utils.py:CorrelatedDataIDI.get_data_set"]}
{"id": "C69", "title": "A FITS IDI file says what it was set up with", "statement": "Opening a file made by the FITS IDI writers gives the stands and antenna positions of set_geometry, the polarizations of set_stokes, the frequencies of set_frequency and the dates of the integrations.", "quantifier": "every setup", "why_tests_cant": "all stand numbers, polarizations and bands", "anchors": ["lsl/writer/fitsidi.py:WriterBase.set_stokes", "lsl/writer/fitsidi.py:WriterBase.set_frequency", "lsl/writer/fitsidi.py:Idi.set_geometry", "lsl/imaging/utils.py:CorrelatedDataIDI.__init__"]}
{"id": "C70", "title": "The rows of a FITS IDI file are in time-baseline order", "statement": "The UV_DATA table of a file has one row for each baseline of each integration, sorted by time and within an integration by baseline.", "quantifier": "every list of integrations and order of calls", "why_tests_cant": "all sizes and orders", "anchors": ["lsl/writer/fitsidi.py:Idi._write_uvdata_hdu"]}
{"id": "C71", "title": "The FITS IDI writer refuses what is incomplete or unknown", "statement": "write() without polarizations, frequencies, antennas or data is an error that changes nothing; a file is written once; unknown polarizations and too many antennas are errors that change nothing.", "quantifier": "every state of a writer", "why_tests_cant": "all states", "anchors": ["lsl/writer/fitsidi.py:Idi.write", "lsl/writer/fitsidi.py:WriterBase.set_stokes", "lsl/writer/fitsidi.py:WriterBase.add_data_set", "lsl/writer/fitsidi.py:Idi.set_geometry"]}
{"id": "C72", "title": "Reading a COR recording gives every integration once, in order", "statement": "Any sequence of CORFile.read(duration) calls on a recording without missing integrations returns each integration once, in time order, each baseline and channel at its place, with zeros for frames that are missing, whatever the order of frames within the buffer; then EOFError. read() without a duration loads the entire file.", "quantifier": "every recording (late, missing, foreign and damaged frames) and every sequence of calls", "why_tests_cant": "unbounded recordings and call histories", "anchors": ["lsl/reader/ldp.py:CORFile.read", "lsl/reader/ldp.py:CORFile._describe_file", "lsl/reader/buffer.py:CORFrameBuffer"]}
{"id": "C73", "title": "Reading a TBX recording gives every spectrum once, in order", "statement": "Any sequence of TBXFile.read(duration) calls returns each spectrum once, in time order, each channel block at its place, with zeros for frames that are missing and for short gaps; as many as the duration asks for or, without one, all that are left; then EOFError. This also holds after offset().", "quantifier": "every recording (late, missing, foreign and damaged frames, gaps) and every sequence of calls", "why_tests_cant": "unbounded recordings and call histories", "anchors": ["lsl/reader/ldp.py:TBXFile.read", "lsl/reader/ldp.py:TBXFile.offset", "lsl/reader/ldp.py:TBXFile._describe_file", "lsl/reader/buffer.py:TBXFrameBuffer"]}
{"id": "C74", "title": "Reading a DR spectrometer recording gives every spectrum once, in order", "statement": "Any sequence of DRSpecFile.read(duration) calls returns each spectrum of the recording once, in time order, each tuning and product in its row and in the product order of the file, as many as the duration asks for; then EOFError. offset(t) moves to the spectrum nearest to t. A damaged, missing or cut-off frame costs no other spectrum.", "quantifier": "every recording (damaged, missing and cut-off frames) and every sequence of calls", "why_tests_cant": "unbounded recordings and call histories", "anchors": ["lsl/reader/ldp.py:DRSpecFile.read", "lsl/reader/ldp.py:DRSpecFile.offset", "lsl/reader/ldp.py:DRSpecFile._ready_file", "lsl/reader/ldp.py:DRSpecFile._describe_file"]}
{"id": "C75", "title": "LWADataFile finds out the format of a file", "statement": "LWADataFile opens every DRX, DRX8, DR spectrometer, TBX and COR recording with the class of its own format, whatever files were read before in the process and with damaged bytes before the first frame; it never opens a file as a format whose frame marks are not in it, and the file is left at its beginning.", "quantifier": "every file and every history of earlier reads", "why_tests_cant": "unbounded byte strings and histories of the process", "anchors": ["lsl/reader/ldp.py:LWADataFile"]}
{"id": "C76", "title": "SpecMaster averages the right windows into the right channels", "statement": "For every antenna and channel SpecMaster returns the mean, over the whole windows of that antenna's own samples that contain no clipped sample, of the power of the (windowed or filter-bank) transform divided by its length, in the bin whose frequency is listed for the channel; NaN if no window is left. Other antennas, the memory around the data and the order in which threads work play no part.", "quantifier": "all arrays of samples, lengths, channel counts, windows, clip levels and thread schedules", "why_tests_cant": "unbounded arrays and schedules of a parallel loop", "anchors": ["lsl/correlator/fx.py:SpecMaster", "lsl/correlator/spec.cpp:compute_spec_real", "lsl/correlator/spec.cpp:compute_spec_complex"]}
{"id": "C77", "title": "StokesMaster returns Stokes parameters of the antennas it pairs", "statement": "StokesMaster returns for each stand and channel the means of I, Q, U and V over the windows in which neither polarization has a clipped sample, always with I^2 at least Q^2+U^2+V^2; X and Y signals of the same stand are combined, and unequal numbers of X and Y signals are refused.", "quantifier": "all arrays, antenna lists, clip levels and thread schedules", "why_tests_cant": "unbounded arrays, every order of the antenna list", "anchors": ["lsl/correlator/fx.py:StokesMaster", "lsl/correlator/stokes.cpp:compute_stokes_real", "lsl/correlator/stokes.cpp:compute_stokes_complex"]}
{"id": "C78", "title": "FXMaster correlates delayed signals into the right rows and channels", "statement": "When the overlap divides the length of the transform, and the antennas of the two polarizations asked for are listed in the same order of stands (or auto-correlations are kept), FXMaster lists all baselines and returns for each and every channel the mean, over the windows that fit the data and in which neither signal is clipped, of the transform of the first signal times the conjugate of that of the second, each signal shifted and rotated by the delay of its antenna relative to the smallest delay at the middle frequency, in the bin whose frequency is listed, times the gain correction if asked for. So two copies of one signal, delayed as the antennas say, give its mean power without a phase, and exchanging the antennas conjugates the result. Memory around the arrays and the order in which threads work play no part.", "quantifier": "all arrays of samples, antenna lists, delays, lengths, windows, overlaps, clip levels, polarization names and thread schedules", "why_tests_cant": "unbounded arrays, arbitrary delay functions and schedules of parallel loops", "anchors": ["lsl/correlator/fx.py:FXMaster", "lsl/correlator/core.cpp:compute_fengine_real", "lsl/correlator/core.cpp:compute_fengine_complex", "lsl/correlator/core.cpp:compute_xengine_two", "lsl/correlator/uvutils.py:get_baselines"]}
{"id": "C79", "title": "XMaster correlates channelized data into the right rows", "statement": "When the stands of each polarization asked for are distinct, and listed in the same order for both (or auto-correlations are kept), XMaster lists all baselines and returns for each and every channel the mean over time of the first signal times the conjugate of the second, each rotated by the delay of its own antenna relative to the smallest one at the middle frequency, times the gain correction if asked for; no number if there are no samples. The order in which threads work plays no part.", "quantifier": "all arrays of channelized data, antenna lists, delays, polarization names and thread schedules", "why_tests_cant": "unbounded arrays, arbitrary delay functions and schedules of a parallel loop", "anchors": ["lsl/correlator/fx.py:XMaster", "lsl/correlator/core.cpp:compute_xengine_two", "lsl/correlator/uvutils.py:get_baselines"]}
{"id": "C80", "title": "FXStokes returns the Stokes parameters of every baseline", "statement": "FXStokes returns for each baseline and channel the Stokes parameters I = XX+YY, Q = XX-YY, U = XY+YX and V = (XY-YX)/i of the correlations of the X and Y signals of the first stand with those of the second, as FXMaster would compute these, gain corrected if asked for.", "quantifier": "all arrays of samples, antenna lists, delays, windows, overlaps, clip levels and thread schedules", "why_tests_cant": "unbounded arrays and schedules; U and V of cross-correlations need complex data to tell apart", "anchors": ["lsl/correlator/fx.py:FXStokes", "lsl/correlator/stokes.cpp:compute_xengine_three"]}
{"id": "C81", "title": "XStokes returns the Stokes parameters of every baseline", "statement": "XStokes returns for each baseline and channel the Stokes parameters of the means over time of the products of the X and Y signals of the first stand with the conjugates of those of the second, each signal rotated by the delay of its own antenna, gain corrected if asked for.", "quantifier": "all arrays of channelized data, antenna lists, delays and thread schedules", "why_tests_cant": "unbounded arrays and schedules, delays that differ between the polarizations of a stand", "anchors": ["lsl/correlator/fx.py:XStokes", "lsl/correlator/stokes.cpp:compute_xengine_three"]}
{"id": "C82", "title": "The robust mean is not carried away by outliers", "statement": "If more than half of the numbers lie in an interval, the robust mean lies within a fixed number of widths of it, however far away the others are; it does not depend on the order of the numbers, and moves and scales with them. Fewer than four numbers raise ValueError.", "quantifier": "all lists of numbers and cut levels", "why_tests_cant": "arbitrary outliers in any number below one half, in any order and at any scale", "anchors": ["lsl/statistics/robust.py:mean"]}
{"id": "C83", "title": "The robust standard deviation exists and is not carried away by outliers", "statement": "The robust standard deviation of four or more numbers is always returned and not negative; if more than half of the numbers lie in an interval it is at most a fixed multiple of its width; it does not depend on the order of the numbers, does not change when they are moved, and scales with them.", "quantifier": "all lists of numbers", "why_tests_cant": "arbitrary outliers in any number below one half, denominators that may come close to zero", "anchors": ["lsl/statistics/robust.py:std"]}
{"id": "C84", "title": "The mode lies in the narrowest half of the numbers", "statement": "The half-sample mode is returned for every list of numbers, lies in an interval that is as narrow as any with half of the numbers, does not depend on their order, and moves and scales with them.", "quantifier": "all lists of numbers", "why_tests_cant": "a recursion over lists of any length with ties", "anchors": ["lsl/statistics/robust.py:mode"]}
{"id": "C85", "title": "Spectral kurtosis stays in its range and ignores the scale", "statement": "The spectral kurtosis of powers that are not negative and not all zero lies between 0 and M N + 1, is 0 exactly when all are equal, and does not change when all are multiplied by a number; taken along an axis it is that of each row.", "quantifier": "all lists of powers, numbers of averaged spectra and scales", "why_tests_cant": "an inequality over lists of any length", "anchors": ["lsl/statistics/kurtosis.py:spectral_power", "lsl/statistics/kurtosis.py:spectral_fft"]}
{"id": "C86", "title": "Robust fits return the line or polynomial the points lie on", "statement": "Points on a line are fitted by linefit with that line; points that the least-squares fit of a given order goes through are fitted by polyfit with a polynomial through the points, written for the x and y given and not for the centred ones.", "quantifier": "all lists of points, slopes, intercepts and orders", "why_tests_cant": "arbitrary points; the rescaling of the coefficients is a polynomial identity", "anchors": ["lsl/statistics/robust.py:linefit", "lsl/statistics/robust.py:polyfit", "lsl/statistics/robust.py:checkfit"]}
{"id": "C87", "title": "Beam forming delays point the array in the direction asked for", "statement": "For a direction with an altitude of 0 to 90 and an azimuth of 0 to 360 degrees the delay of every antenna at every frequency is that of its cable less the geometric one from the middle of the array; moving the whole array changes nothing; any other direction raises ValueError.", "quantifier": "all arrays of antennas, directions and lists of frequencies", "why_tests_cant": "arrays of any size and shape", "anchors": ["lsl/misc/beamformer.py:calc_delay"]}
{"id": "C88", "title": "The phased beam is the mean of the good antennas, and a wave from its direction adds up coherently", "statement": "The beam of a polarization is the mean over its good antennas of the signals turned by the phases of their delays; a wave from the direction of the beam adds up to itself; the power of the beam is at most the mean power of the antennas; circular polarizations keep the power and have the sign of Stokes V of their convention.", "quantifier": "all arrays, signals, frequencies, times and directions", "why_tests_cant": "arrays of any size; blocks of 32 samples and what is left over", "anchors": ["lsl/misc/beamformer.py:phase_and_sum", "lsl/misc/beamformer.py:circularize", "lsl/misc/beamformer.cpp:BEngine"]}
{"id": "C89", "title": "Downsampling, linear regridding and smoothing do what their names say", "statement": "Downsampling returns the mean or sum of each complete run of numbers; linear regridding returns the values on the lines that join the data and refuses points outside; smoothing returns as many numbers as it is given, each the weighted mean around its place, keeps constants and straight lines and is linear.", "quantifier": "all lists of numbers, factors, window lengths and windows", "why_tests_cant": "lists of any length; the ends of the list", "anchors": ["lsl/misc/mathutils.py:downsample", "lsl/misc/mathutils.py:regrid", "lsl/misc/mathutils.py:smooth"]}
{"id": "C90", "title": "Gridding splits the visibilities into w planes without losing any", "statement": "The w planes of WProjection are consecutive non-empty runs that together contain every visibility, at most 1024 of them, and in sorted data every member of a plane is less than the plane's width above its first.", "quantifier": "all lists of w coordinates, plane widths and contents of the memory in front of the array", "why_tests_cant": "data of any length; data that fit in one plane; data that need too many planes", "anchors": ["lsl/imaging/gridder.cpp:compute_planes", "lsl/imaging/gridder.cpp:WProjection"]}
{"id": "C91", "title": "Every visibility is spread over the uv plane by the gridding kernel around its place", "statement": "After gridding, each cell holds the sum over the visibilities of their value times the kernel at the distance of the cell from the visibility, on the plane folded with its own period; the sum over all cells is the sum of the values times the kernels' sums.", "quantifier": "all plane sizes, resolutions, kernels and lists of visibilities", "why_tests_cant": "every position, on the grid, between cells, at and beyond the edge", "anchors": ["lsl/imaging/gridder.cpp:compute_gridding"]}
{"id": "C92", "title": "W projection gives the sum over the planes of their grids convolved with the plane's w term, in any order of the threads", "statement": "The uv plane of WProjection is the sum over the w planes of the backward transform of the forward transformed plane times the w term of its mean w, divided by the number of cells; the order in which threads finish does not matter; with all w equal to zero it is the gridded data.", "quantifier": "all data, plane sizes, orders of the threads and linear transforms", "why_tests_cant": "all schedules; repeated calls with planes of different size", "anchors": ["lsl/imaging/gridder.cpp:compute_gridding", "lsl/imaging/gridder.cpp:w_projection_kernel"]}
{"id": "C93", "title": "A gridded image is made from the visibilities given", "statement": "build_gridded_image puts all visibilities of the polarization asked for into the image with the time of the data set, and raises RuntimeError if the polarization is missing; of a collection of data sets every one contributes; masked visibilities do not.", "quantifier": "all data sets, polarizations, masks and images to add to", "why_tests_cant": "collections of any length", "anchors": ["lsl/imaging/utils.py:build_gridded_image"]}
{"id": "C94", "title": "Weighting an image does what its name says and does not change the image", "statement": "image() gives for natural weighting the stored plane, for uniform weighting each cell over its weight and zero where there is none, for Briggs weighting each cell over 1 + w S; a taper multiplies the result; an unknown scheme raises ValueError; the object is the same afterwards.", "quantifier": "all planes, weights, schemes, robustness and tapers", "why_tests_cant": "planes of any size; cells without weight; repeated calls", "anchors": ["lsl/imaging/utils.py:ImgWPlus.image", "lsl/imaging/utils.py:ImgWPlus.bm_image", "lsl/imaging/utils.py:ImgWPlus._gen_img"]}
{"id": "C95", "title": "The minor cycle conserves flux and only moves it", "statement": "Each turn of the minor cycle takes the gain's share of the cell of greatest size, with the beam moved there, and puts its flux in that cell; it ends after max_iter turns or when the greatest is within two standard deviations of the mean. The total of the returned image is that of the image given, and with a point beam the image comes back unchanged.", "quantifier": "all images, beams, gains and iteration limits", "why_tests_cant": "images of any size; any number of turns; ties for the greatest cell", "anchors": ["lsl/imaging/deconv.py:_minor_cycle"]}
{"id": "C96", "title": "CLEAN returns the points taken from the image and what is left of it", "statement": "clean() removes at most max_iter points, each the gain's share of the brightest cell of what is left, with the array's response to a source there; it stops at the limit or when nothing positive or above sigma deviations is left, and returns the points convolved with the restoring beam plus what is left. A point between cells is shared by the four around it without loss. It does so for sources anywhere in the image.", "quantifier": "all images, coordinate grids, responses, beam widths, gains, thresholds and iteration limits", "why_tests_cant": "sources at every place, the edge included; negative images; repeated positions that reuse a beam", "anchors": ["lsl/imaging/deconv.py:clean", "lsl/imaging/deconv.py:_interpolate"]}
{"id": "C97", "title": "The least squares deconvolution returns a model and its own residuals", "statement": "lsq() goes on while the deviation of the residuals drops by rtol at least, never uses a negative model, and returns the model of the best turn, convolved, plus the residuals of the same turn; if a turn makes it worse it goes back to the one before.", "quantifier": "all images, simulators, gains, tolerances and iteration limits", "why_tests_cant": "runs that settle, run out, get worse, or have nothing to model", "anchors": ["lsl/imaging/deconv.py:lsq"]}
{"id": "C98", "title": "Telemetry counts the calls it is told of and does not change what they do", "statement": "While telemetry is on, the logs written and the counts not yet written together hold every call told, once each; the counts in memory are bounded; while it is off nothing is counted or written; a wrapped function or method returns or raises what the plain one does. Asking a module to ignore telemetry switches it off.", "quantifier": "all histories of calls, writes, switches and clock readings; all functions wrapped", "why_tests_cant": "any history, any clock; read-only homes; functions that raise", "anchors": ["lsl/misc/telemetry/__init__.py:_TelemetryClient", "lsl/misc/telemetry/__init__.py:track_function", "lsl/misc/telemetry/__init__.py:track_function_timed", "lsl/misc/telemetry/__init__.py:enable", "lsl/misc/telemetry/__init__.py:disable", "lsl/misc/telemetry/__init__.py:ignore"]}
{"id": "C99", "title": "A telemetry log is sent or kept", "statement": "A log that was completely written is removed only after the server has had it; nothing is sent before the oldest log is a week old; what the server has had are logs that were written, and each only once.", "quantifier": "all interleavings of processes writing logs and sending them, all replies and losses of replies", "why_tests_cant": "other processes writing at the same time; servers that fail at any moment", "anchors": ["lsl/misc/_telemetry_send.py:main", "lsl/misc/telemetry/__init__.py:_TelemetryClient.write"]}
{"id": "C100", "title": "A data file fetched is the whole file, and failing leaves none", "statement": "Opening a data file gives the copy in the cache if it is young or nothing newer is known, else the local copy, else the first server's file, else the backup's; what is in the cache after success is the whole file from its source, whatever happened to earlier fetches; after failure of every source the file is not there and the caller is told; a refresh gives the newer file and never loses the older one.", "quantifier": "all cache states, sources, modification times, cuts of the transfer, exceptions and crash points", "why_tests_cant": "connections that end early; death of the process at any block; files that go out of date", "anchors": ["lsl/common/data_access.py:_DataAccess.fetch_data_file", "lsl/common/data_access.py:download_file"]}
{"id": "C101", "title": "A text header that was written is read back", "statement": "parse_header() of a file whose header was written with BoxHeader or CommentHeader (automatic width), followed by any data, gives the dictionary of the keys and values and nested sections that were put in, in their order; rules and blank lines change nothing.", "quantifier": "all trees of sections, keys and values, all indents and comment characters, all data that follows", "why_tests_cant": "any nesting and order of sections and values; any names and texts; any following data", "anchors": ["lsl/common/header.py:_BaseHeader", "lsl/common/header.py:BoxHeader", "lsl/common/header.py:CommentHeader", "lsl/common/header.py:parse_header"]}
{"id": "C102", "title": "A box header is a rectangle", "statement": "A BoxHeader in the automatic width writes a full line and an empty line at either end and each call as one line in between; every line has the same length and starts and ends with the comment character; each text stands there unbroken, indented by its level, with a blank before the right side.", "quantifier": "all calls of rule, blank, line, key_value and nested sections with texts of one line without blanks at the ends", "why_tests_cant": "any texts, any nesting, any indent", "anchors": ["lsl/common/header.py:BoxHeader", "lsl/common/header.py:_BaseHeader.write", "lsl/common/header.py:_BaseHeader.section"]}
{"id": "C103", "title": "A C structure described by its text is read as the C compiler lays it out", "statement": "parse_c_struct() of the declarations of a C structure (any of the spellings of the types, any number of dimensions written with numbers, macros, sums and products, comments, blank lines) gives an object into which a memory image written by C is read so that every field has the stored values in the stored order, with the padding between and after the fields; a file that is too short is completed with zeros.", "quantifier": "all lists of declarations of the supported types and their values, all paddings, both byte orders, char as character or as number", "why_tests_cant": "any structure text, any values, any padding bytes", "anchors": ["lsl/common/mcs.py:parse_c_struct", "lsl/common/mcs.py:MCS structures"]}
{"id": "C104", "title": "A session or observation specification file is read back as MCS wrote it", "statement": "read_ses_file() and read_obs_file() return every stored number, text, step, custom beam, gain and setting of a file MCS wrote; an observation file cut anywhere, with more than 1024 steps, or with an unknown mode is refused.", "quantifier": "all contents of the structures, any number of steps with and without custom beams, all places where the file is cut", "why_tests_cant": "any field values, any number of steps, every truncation", "anchors": ["lsl/common/metabundle.py:read_ses_file", "lsl/common/metabundle.py:read_obs_file"]}
{"id": "C105", "title": "A command script is read back command by command", "statement": "read_cs_file() returns the commands of a script in their order with their times, subsystems, types and data; it always ends; a command that does not exist or is for DP or ADP refuses the file.", "quantifier": "all sequences of commands with data of any length, all files", "why_tests_cant": "any number of commands, any data, any damaged file", "anchors": ["lsl/common/metabundle.py:read_cs_file"]}
{"id": "C106", "title": "The right member of a metadata tarball is read", "statement": "get_session_spec(), get_command_script() and get_observation_spec() read the member that holds the specification (the last one of a name, the one named like the tarball if there is one), the observations in the order of their names; is_valid() accepts only a tarball with the files of a session; a tarball opened again is read as it is then.", "quantifier": "all lists of members with any names and contents, all histories of openings", "why_tests_cant": "any members in any order, repeated names, a tarball replaced between two calls", "anchors": ["lsl/common/metabundle.py:get_session_spec", "lsl/common/metabundle.py:get_observation_spec", "lsl/common/metabundle.py:get_command_script", "lsl/common/metabundle.py:is_valid", "lsl/common/metabundle.py:_open_tarball"]}
{"id": "C107", "title": "A station dynamic MIB is read back and applied to the right antennas", "statement": "parse_sdm() returns the status of the station, of its subsystems and parts, of the antennas and outputs, and the settings as stored; update_antennas() gives each antenna the status stored for its stand and polarization and leaves others alone.", "quantifier": "all contents of the file, all lists of antennas", "why_tests_cant": "any stored values, any antennas in any order", "anchors": ["lsl/common/sdm.py:parse_sdm", "lsl/common/sdm.py:SDM.update_antennas", "lsl/common/sdm.py:StationSettings"]}
{"id": "C108", "title": "A station description file gives the station it describes", "statement": "parse_ssmif() of a well-formed text file (any order of entries within their sections, any spacing, comments and repeated entries) returns a station whose antennas are exactly those of the file in the order of their digitizers, each with the stand, position, orientation, status, front end, cable, ARX channel, board, digitizer and connector the file assigns to it (the last value given, or the documented default) and nothing else; location, gain and name follow the file.", "quantifier": "all files with any numbers of stands, front ends, cables, boards and channels and any wiring in which every antenna is used at most once in each role", "why_tests_cant": "any numbers of parts, any wiring, any order and repetition of entries", "anchors": ["lsl/common/stations.py:parse_ssmif", "lsl/common/stations.py:_parse_ssmif_text"]}
{"id": "C109", "title": "The attenuator settings of a stand belong to the cables of that stand", "statement": "After parse_ssmif() the cable of each antenna carries the attenuation set for the antenna's stand, relative to the least attenuated one.", "quantifier": "all well-formed files with attenuators set for all stands or stand by stand", "why_tests_cant": "any settings, any wiring", "anchors": ["lsl/common/stations.py:parse_ssmif", "lsl/common/stations.py:_parse_ssmif_text"]}
{"id": "C110", "title": "A damaged station description file is refused", "statement": "parse_ssmif() raises an exception for a file with another format version, a value that is not a number where one is needed, or an entry for a part that does not exist, wherever in the file it stands; it never assigns such an entry to another part.", "quantifier": "all files with a well-formed beginning, a damaged entry and anything after it", "why_tests_cant": "any place of the damage, any contents before and after", "anchors": ["lsl/common/stations.py:_parse_ssmif_text", "lsl/common/stations.py:parse_ssmif"]}
{"id": "C111", "title": "The coordinates of a baseline are its components towards the source and the pole", "statement": "compute_uvw() gives for each baseline (all pairs of a list of antennas, or the pairs given) and frequency the components of the separation in wavelengths along the three axes of the uv plane: w towards the source, v towards the pole, u to the east. They add up around a triangle, change sign with the order of the antennas and have the length of the baseline. What is not a list of antennas or of pairs is refused.", "quantifier": "all antenna positions, lists and pairs, hour angles and declinations in every accepted type, latitudes, frequencies in arrays of any shape", "why_tests_cant": "every position, angle and frequency; any number of antennas", "anchors": ["lsl/correlator/uvutils.py:compute_uvw", "lsl/correlator/uvutils.py:get_baselines", "lsl/common/stations.py:Stand.__sub__"]}
{"id": "C112", "title": "The track of a baseline through the uv plane is where it is in the course of a day", "statement": "compute_uv_track() gives for each baseline 512 points, each of which is what compute_uvw() gives for that baseline at some hour angle and the same declination, site and frequency; the hour angles of the whole day lie on the ellipse of those points. It takes the declinations compute_uvw() takes, and all points are numbers.", "quantifier": "all antenna positions, declinations, latitudes and frequencies, all hour angles", "why_tests_cant": "every hour angle, position and declination", "anchors": ["lsl/correlator/uvutils.py:compute_uv_track", "lsl/correlator/uvutils.py:compute_uvw"]}
{"id": "C113", "title": "A UVFITS file that was written is read back", "statement": "CorrelatedDataUV.get_data_set() of a file written with the Uv writer returns every integration: its date, phase center and integration time, and for every baseline the coordinates and the visibilities of all channels and polarizations under the right stands, whatever the order of the calls of add_data_set(); dates are as exact as the numbers of the file; auto-correlations appear only if asked for. Weights are kept.", "quantifier": "all integrations, baselines, polarizations, channels and values, all orders of the calls", "why_tests_cant": "any number and order of baselines, polarizations and integrations", "anchors": ["lsl/writer/uvfits.py:Uv.write", "lsl/writer/uvfits.py:Uv._write_primary_hdu", "lsl/writer/fitsidi.py:WriterBase.add_data_set", "lsl/imaging/utils.py:CorrelatedDataUV.get_data_set"]}
{"id": "C114", "title": "Opening a UVFITS file shows what was set", "statement": "CorrelatedDataUV of a file written with the Uv writer has its stands and antennas in the order of set_geometry(), its polarizations, its frequencies and the dates of its integrations, for every geometry and frequency setup the writer accepts.", "quantifier": "all antennas, polarizations, frequencies and integrations", "why_tests_cant": "any geometry, any frequencies, any number of integrations", "anchors": ["lsl/writer/uvfits.py:Uv.set_geometry", "lsl/writer/uvfits.py:Uv._write_aipsan_hdu", "lsl/imaging/utils.py:CorrelatedDataUV.__init__"]}
{"id": "C115", "title": "The groups of a UVFITS file are in the order its header says", "statement": "A file has one group for each baseline of each integration, sorted by time and then by baseline, whatever the order of the calls.", "quantifier": "all stands, integrations and orders of the calls", "why_tests_cant": "any stand numbers, any order", "anchors": ["lsl/writer/uvfits.py:Uv._write_primary_hdu", "lsl/writer/fitsidi.py:WriterBase._UVData.argsort", "lsl/writer/uvfits.py:merge_baseline"]}
{"id": "C116", "title": "A UVFITS file is written once, and data that could not be written are kept", "statement": "write() without polarizations, a single frequency setup, antennas or data is refused and changes nothing; after success the writer has no data, after a failure it still has all; its settings never change.", "quantifier": "all writers and data, all failures", "why_tests_cant": "any failure at any data set", "anchors": ["lsl/writer/uvfits.py:Uv.write", "lsl/writer/uvfits.py:Uv._write_primary_hdu"]}
{"id": "C117", "title": "An interferometer definition file that was written is read back", "statement": "parse_idf() of the text render() gives for a valid project returns the project: observer, project, run, correlator setup, stations, and every scan with its target, intent, times, tunings, filter, gain and alternate phase centers in the order of time; positions to nine decimals and proper motions to one. What a scan leaves out stays left out.", "quantifier": "all projects the constructors accept with one run, any number of scans and alternate phase centers", "why_tests_cant": "any texts, positions, proper motions and settings, any number and mixture of scans", "anchors": ["lsl/common/idf.py:Project.render", "lsl/common/idf.py:parse_idf", "lsl/common/idf.py:_parse_create_scan_object"]}
{"id": "C118", "title": "A run is valid exactly if it can be observed and correlated", "statement": "validate() of a project answers True exactly for a project id of at most eight characters and a run with a number from 1 to 9999, no station twice, one filter, no two scans at the same time, each scan within the limits of the tunings, the filter, the visibility, the alternate phase centers and the recorders, and the total within the recorders of all stations; it always answers; render() writes only valid projects.", "quantifier": "all projects with any number of stations and scans, any outcome of the visibility tests", "why_tests_cant": "any number and order of scans and stations", "anchors": ["lsl/common/idf.py:Project.validate", "lsl/common/idf.py:Run.validate", "lsl/common/idf.py:Scan.validate", "lsl/common/idf.py:Project.render"]}
{"id": "C119", "title": "Each station is told to do what the run needs of it", "statement": "generate_sdfs() of a valid project gives one session definition per station, with consecutive session numbers and the title of the station, whose observations are the scans in the order of time with the same times, tunings, filter and gain and the position moved by the proper motion; each is itself valid. It gives them for every valid project.", "quantifier": "all valid projects, starting numbers and states of the project office", "why_tests_cant": "any number of stations and scans, any proper motions and dates", "anchors": ["lsl/common/idf.py:Project.generate_sdfs", "lsl/common/sdf.py:Session.validate"]}
{"id": "C120", "title": "A log file and a user's handler get every message that is due, once and in order", "statement": "After enable_file_logging(), until the file is changed or disabled, each message at or above the log level, each captured warning if warnings are captured, that all filters in force let through, is appended to the file once and in order if it has the level of the file; mode 'w' empties the file first and 'a' leaves it; other files do not change. A handler added with add_handler() gets each such message once however often it was added.", "quantifier": "all histories of calls of the logger's functions and messages, all levels, patterns, files and contents", "why_tests_cant": "histories of any length and order, with files switched, consoles and filters added and removed in between", "anchors": ["lsl/logger.py:enable_file_logging", "lsl/logger.py:disable_file_logging", "lsl/logger.py:add_handler", "lsl/logger.py:remove_handler", "lsl/logger.py:capture_warnings", "lsl/logger.py:set_log_level"]}
{"id": "C121", "title": "Filters limit the log to the modules of their patterns", "statement": "A filter is a shell pattern; a message is logged if all patterns in force match. A filter that was removed or cleared has no effect, adding one twice is the same as once; a pattern such as 'lsl.imaging.*' lets the messages of that module through.", "quantifier": "all patterns, names and histories", "why_tests_cant": "any pattern and history of filters", "anchors": ["lsl/logger.py:_ModuleFilter", "lsl/logger.py:add_filter", "lsl/logger.py:remove_filter", "lsl/logger.py:clear_filters"]}
{"id": "C122", "title": "Each message appears on the console once, if console logging is enabled", "statement": "While the console is enabled each message that is due is written to its stream once; after disable_console_logging() none is.", "quantifier": "all histories of calls of the logger's functions", "why_tests_cant": "histories of any length, streams changed in between", "anchors": ["lsl/logger.py:enable_console_logging", "lsl/logger.py:disable_console_logging"]}
{"id": "C123", "title": "Antenna gains in dBi, dBd and K/Jy are the same gain", "statement": "dBi_to_gain() gives the gain in K/Jy of an antenna whose area is so many decibels above an isotropic antenna at the frequency, dBd_to_gain() that of one 2.14844 dB above; gain_to_dBi() and gain_to_dBd() undo them and they undo these; a gain has decibels exactly if it is positive and the frequency is not zero, and ValueError otherwise; quantities with units mean the same as their numbers.", "quantifier": "all real gains, decibels, frequencies and units (rounding left out)", "why_tests_cant": "equality for all values, in both directions", "anchors": ["lsl/misc/rfutils.py:dBi_to_gain", "lsl/misc/rfutils.py:dBd_to_gain", "lsl/misc/rfutils.py:gain_to_dBi", "lsl/misc/rfutils.py:gain_to_dBd", "lsl/misc/rfutils.py:dBd_to_dBi", "lsl/misc/rfutils.py:dBi_to_dBd"]}
{"id": "C124", "title": "SEFD, effective area and received power agree", "statement": "calculate_sefd() gives the flux density that doubles the system temperature, from the gain or from area and efficiency, and RuntimeError if it has neither; calculate_effective_area() gives the area with the gain; Jy_to_dBm() gives the received power over a milliwatt in decibels, ValueError exactly if it is not positive, and dBm_to_Jy() undoes it, and the reverse.", "quantifier": "all real temperatures, gains, areas, efficiencies, bandwidths and flux densities (rounding left out)", "why_tests_cant": "equality for all values, in both directions", "anchors": ["lsl/misc/rfutils.py:calculate_sefd", "lsl/misc/rfutils.py:calculate_effective_area", "lsl/misc/rfutils.py:Jy_to_dBm", "lsl/misc/rfutils.py:dBm_to_Jy"]}
{"id": "C125", "title": "Marked text is shown in its colors and styles", "statement": "colorfy() of any text with tags ({{%name text}}, one in the other) ends, and a terminal shows the result as the text, each character in the colors and styles of all the tags around it, the inner over the outer, and what follows a tag as what was before it; names are in any case and unknown ones change nothing; text without tags is left as it is; uncolorfy() of the result is the text.", "quantifier": "all texts with tags of any number, order and nesting", "why_tests_cant": "any nesting and sequence of tags, any text between them", "anchors": ["lsl/common/color.py:colorfy", "lsl/common/color.py:_label", "lsl/common/color.py:uncolorfy"]}
{"id": "C126", "title": "A catalog is a mapping of its primary names", "statement": "For any LWA or PSRCAT catalog file that can be read, iterating over the catalog gives every primary name once and len() counts them; every name iterated over can be looked up and is the name of the entry found; any other name that is found is an alias of the entry it leads to, which is itself listed; subscription raises KeyError exactly for the names that are not in the catalog.", "quantifier": "all file contents and all names", "why_tests_cant": "any number of lines, duplicate names and aliases, aliases equal to names", "anchors": ["lsl/catalog.py:Catalog", "lsl/catalog.py:LWA_Catalog.parse_file", "lsl/catalog.py:PSR_Catalog.parse_file"]}
{"id": "C127", "title": "The LWA catalog holds the sources of its file", "statement": "Whatever sources a file in the LWA column format describes, with comments and blank lines between them, every name leads to the last source with this primary name, or else to the last one that lists it as an alias, with the right ascension, declination and sign written in the file; no other name leads anywhere.", "quantifier": "all files in the format, all names", "why_tests_cant": "any number of sources, names and aliases used again", "anchors": ["lsl/catalog.py:LWA_Catalog.parse_file", "lsl/catalog.py:Catalog.lookup", "lsl/astro.py:hms", "lsl/astro.py:dms"]}
{"id": "C128", "title": "The pulsar catalog holds the pulsars of its file", "statement": "Whatever pulsars the records of a PSRCAT file describe, with the values in any order and other lines between them, each one with a usable right ascension and declination is found under its B name and its J name, or under the J name alone, with its position and sign; the others are left out, and no value leaks from one record into the next.", "quantifier": "all files of well-formed records, all names", "why_tests_cant": "any number of records, missing values, order of lines", "anchors": ["lsl/catalog.py:PSR_Catalog.parse_file", "lsl/catalog.py:Catalog.lookup"]}
{"id": "C129", "title": "Malformed catalog lines are reported or left out", "statement": "A line out of format stops the reading of an LWA catalog with a RuntimeError that names the line; a malformed position in a PSRCAT file leaves out that pulsar only.", "quantifier": "all files and malformed lines", "why_tests_cant": "any line at any place of the file", "anchors": ["lsl/catalog.py:LWA_Catalog.parse_file", "lsl/catalog.py:PSR_Catalog.parse_file"]}
{"id": "C130", "title": "The factory reads each catalog once", "statement": "In any sequence of get_catalog() requests, whichever constructions fail, unknown names raise ValueError, all successful requests for a name give the same object, different names give different objects, a catalog file is not read again after it has been read once, and a failed construction is tried again at the next request.", "quantifier": "all sequences of requests and failures", "why_tests_cant": "any order and number of requests", "anchors": ["lsl/catalog.py:CatalogFactory.get_catalog"]}
{"id": "C131", "title": "Splitting a DRX file copies it unchanged", "statement": "The files splitDRX writes are, one after another, the bytes of the input from where the split begins, each file the next stretch of the requested whole number of captures; with the recursive option every file is of full length and less than another file and a frame is left over; the captures kept last as long as asked for, to within one capture.", "quantifier": "all files, frame sizes, durations, sample rates, beam layouts and options", "why_tests_cant": "any file length and duration", "anchors": ["scripts/splitDRX.py:split_file", "scripts/splitDRX.py:main"]}
{"id": "C132", "title": "A split DRX file begins with a whole capture", "statement": "Wherever the requested offset falls, the first frame of the split file is the first one (tuning 1, polarization 0) of a capture.", "quantifier": "all sequences of frames", "why_tests_cant": "any frame order at the position reached", "anchors": ["scripts/splitDRX.py:main"]}
{"id": "C133", "title": "Time gives back what it was set to", "statement": "A transform.Time set from a Julian day, a modified Julian day or Unix seconds, in UTC or TAI, from an MCS day and millisecond or from a count of samples gives back the same value and the corresponding ones of the other representations; the MCS millisecond is always one of the day; unsupported formats and values of a wrong type are refused; times are ordered as the instants they stand for.", "quantifier": "all values, formats, time systems and instants", "why_tests_cant": "all numbers", "anchors": ["lsl/transform.py:Time"]}
{"id": "C134", "title": "The runs test counts runs", "statement": "For any sequence the Wald-Wolfowitz test counts the maximal stretches of positive and of other values and how many values of each kind there are; exchanging the two kinds leaves the statistic as it is.", "quantifier": "all sequences of values", "why_tests_cant": "any length and values", "anchors": ["lsl/statistics/stattests.py:_count_runs", "lsl/statistics/stattests.py:wald_wolfowitz"]}
{"id": "C135", "title": "The spectral kurtosis is the published estimator", "statement": "For any powers, each the mean of N spectra, spectral_power gives the estimator of Nita and Gary for the M values summed over: never negative, zero exactly when all are alike, at most M N + 1 for powers that are not negative, and independent of their order and of a common factor; along an axis of a two-dimensional array it gives the values of the columns or rows; spectral_fft gives the value for the powers of the spectra.", "quantifier": "all powers, spectra, N, array shapes and axes", "why_tests_cant": "any number of values", "anchors": ["lsl/statistics/kurtosis.py:spectral_power", "lsl/statistics/kurtosis.py:spectral_fft"]}
{"id": "C136", "title": "Kurtosis limits leave the error handling as it was", "statement": "Whatever happens in get_limits, the numpy handling of floating-point errors is afterwards what it was before; a limit whose computation overflows is replaced by the given number of standard deviations from the mean; the expected moments are positive for two or more points.", "quantifier": "all sigma, M, N and outcomes of the distribution functions", "why_tests_cant": "any of the computations may raise", "anchors": ["lsl/statistics/kurtosis.py:get_limits", "lsl/statistics/kurtosis.py:var", "lsl/statistics/kurtosis.py:skew"]}
{"id": "C137", "title": "A pulse profile is its residual and its broadened components", "statement": "For any profile, broadening function, gain and search range, the profile is exactly what the deconvolution leaves plus its components, each broadened with the scattering time reported; area is neither made nor lost, no component is negative, and unless all iterations were used up nothing above 1.5 times the off-pulse deviation is left.", "quantifier": "all profiles, broadening functions, gains, iteration limits and search ranges", "why_tests_cant": "any number of iterations", "anchors": ["lsl/misc/scattering.py:unscatter"]}
{"id": "C138", "title": "The best scattering time is reported", "statement": "unscatter tries the times of the range in equal steps, the greatest excluded, and reports the first one with the least figure of merit; when there is none a RuntimeError says so.", "quantifier": "all ranges and figures of merit", "why_tests_cant": "any number of times tried", "anchors": ["lsl/misc/scattering.py:unscatter"]}
{"id": "C139", "title": "Every peak of an image is found once", "statement": "For any image, threshold and detection area, find_point_sources reports, each once, the pixels away from the edges that are at or above the threshold in the convolved image, are exceeded by no pixel of the detection area, and have a sharpness and roundness within the given bounds, with the value of the image there and these statistics.", "quantifier": "all images, convolved images, thresholds, radii and bounds", "why_tests_cant": "any size of image and number of peaks", "anchors": ["lsl/imaging/analysis.py:find_point_sources"]}
{"id": "C140", "title": "A source is placed at its flux-weighted center", "statement": "The position reported for a source is the intensity-weighted center of the box around its pixel, the first coordinate along the first axis of the image and the second along the second.", "quantifier": "all images and sources", "why_tests_cant": "any size of image and any shape of source", "anchors": ["lsl/imaging/analysis.py:find_point_sources"]}
{"id": "C141", "title": "Updating antennas gives each its status and leaves the given ones alone", "statement": "For any status table and antennas, SDM.update_antennas returns new antennas in the order given, each with the status of its stand and polarization in the table and otherwise the same, and an IndexError for a stand that is not in the table; the antennas given are not changed.", "quantifier": "all tables, antennas and lists of them, repetitions included", "why_tests_cant": "any number of antennas", "anchors": ["lsl/common/sdm.py:SDM.update_antennas"]}
{"id": "C142", "title": "A flat list and its multi-dimensional form hold the same elements", "statement": "For any shape and any list as long as the product of its dimensions, flat_to_multi gives nested lists whose element at any indices is the element of the list at that place in row-major order; any other length is a ValueError.", "quantifier": "all lists and shapes", "why_tests_cant": "any number and size of dimensions", "anchors": ["lsl/common/mcs.py:flat_to_multi"]}
{"id": "C143", "title": "The settings of a station are those of the file", "statement": "After StationSettings.binary_read the report and update interval of every subsystem is the one in the file.", "quantifier": "all files and previous values", "why_tests_cant": "any contents", "anchors": ["lsl/common/sdm.py:StationSettings.binary_read"]}
{"id": "C144", "title": "A subsystem status can be printed", "statement": "str() of a SubSystemStatus gives its text, whether it was made by the constructor or read from a file.", "quantifier": "all summary codes", "why_tests_cant": "any status", "anchors": ["lsl/common/sdm.py:SubSystemStatus.__str__"]}
{"id": "C145", "title": "A MIB value is read as it is stored", "statement": "For every entry of a MIB database and every type, the value of the MIBEntry is the text or number stored in the record.", "quantifier": "all types, values and records", "why_tests_cant": "any value of up to eight bytes and any text", "anchors": ["lsl/common/mcs.py:MIBEntry.from_entry", "lsl/common/mcs.py:MIBEntry._parse_value"]}
{"id": "C146", "title": "A MIB gives each entry by its index and by its name", "statement": "A MIB loaded from a database holds for each index the last valid entry, leaves out branches and entries that cannot be interpreted without raising, and gives every entry by its index, and by the name the initialization file has for it; keys(name=True) names the entries in the order of keys().", "quantifier": "all databases and initialization files", "why_tests_cant": "any number of records and names", "anchors": ["lsl/common/mcs.py:MIB.from_file", "lsl/common/mcs.py:MIB.parse_init_file", "lsl/common/mcs.py:MIB.__getitem__", "lsl/common/mcs.py:MIB.keys"]}
{"id": "C147", "title": "Background tiles cover the image, half overlapped", "statement": "For every image and window, estimate_background divides the image into half-overlapped tiles of window by window pixels, and each estimate is placed at the center of its tile.", "quantifier": "all image sizes and windows", "why_tests_cant": "any size and any window", "anchors": ["lsl/imaging/analysis.py:estimate_background"]}
{"id": "C148", "title": "Every background tile has an estimate", "statement": "For every tile, the background estimate is a number; when clipping changes the standard deviation by at most 20% it is the clipped mean, which is within the range of the pixels.", "quantifier": "all tiles", "why_tests_cant": "any pixels", "anchors": ["lsl/imaging/analysis.py:estimate_background"]}
{"id": "C149", "title": "The virtual writer keeps every data set added", "statement": "For every history of added data sets, a data set with the shape of the others is kept as the last set and the earlier sets keep their numbers, also when it is another polarization of a time that is there already; one of another shape raises ValueError.", "quantifier": "all histories of added data sets", "why_tests_cant": "any number of data sets, times and shapes", "anchors": ["lsl/writer/virtual.py:VirtualWriter.add_data_set", "lsl/imaging/data.py:VisibilityData.append"]}
{"id": "C150", "title": "The virtual writer gives the data sets asked for and is not changed", "statement": "get_data_set gives the sets with the numbers asked for, counted from one, in the order asked for or, sorted, in order of time with the baselines in order; a number that is no set is an IndexError, and the data in the writer stay as they were added.", "quantifier": "all writers and lists of set numbers", "why_tests_cant": "any history of additions and queries", "anchors": ["lsl/writer/virtual.py:VirtualWriter.get_data_set", "lsl/imaging/data.py:VisibilityData.sort"]}
{"id": "C151", "title": "The background filter removes single anomalous tiles and keeps the level", "statement": "For every grid of tile values, the filtered background of a tile whose neighbours are all at one level is that level, so that a single anomalously high tile is removed, and a filtered value is within the range of the tile and its neighbours, at the edges and corners of the image as elsewhere.", "quantifier": "all grids of tile values", "why_tests_cant": "any number of tiles and any values", "anchors": ["lsl/imaging/analysis.py:estimate_background"]}
{"id": "C152", "title": "The filter bank is the Fourier transform of the weighted taps", "statement": "For every signal, number of channels N and number of taps P, fft gives N channels, the transform of the first N*P weighted samples added up over the taps; it is linear, later samples do not matter, and a signal that is too short is an error. fft2 to fft32 are the same with 2 to 32 taps.", "quantifier": "all signals, channels, taps, windows", "why_tests_cant": "any length and number of taps", "anchors": ["lsl/correlator/filterbank.py:fft", "lsl/correlator/filterbank.py:fft2", "lsl/correlator/filterbank.py:fft32"]}
