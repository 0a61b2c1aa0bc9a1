{
 "claims": [
  {
   "property": "C01",
   "status": "proved",
   "theorems": [
    "C01_emission_strictly_increasing",
    "C01_get_determined_by_history"
   ],
   "note": "All five buffer classes, every append/get history; plus a full characterisation of get() by the appended frames."
  },
  {
   "property": "C02",
   "status": "proved",
   "theorems": [
    "C02_late_frame_is_dropped",
    "C02_new_frame_is_kept"
   ],
   "note": "Late frames only bump the dropped counter and change no later output; newer frames are kept."
  },
  {
   "property": "C03",
   "status": "proved",
   "theorems": [
    "C03_frames_conserved",
    "C03_never_raises"
   ],
   "note": "Permutation between appended frames and dropped + buffered + returned valid frames; histories of append/get/flush."
  },
  {
   "property": "C04",
   "status": "partial",
   "theorems": [
    "C04_sets_are_complete_partial",
    "C04_complete_refuted_count",
    "C04_complete_refuted_partial",
    "C04_cor_overfull_loses_frames",
    "C04_fill_is_zero",
    "C04_fill_is_zero_refuted"
   ],
   "note": "Proved when no (timestamp, id) pair is duplicated and all ids are expected; refuted in general (duplicates that reach nFrames, duplicates in partial sets, COR over-full sets, NaN in COR fill frames)."
  },
  {
   "property": "C05",
   "status": "partial",
   "theorems": [
    "C05_flush_drains",
    "C05_flush_order_refuted"
   ],
   "note": "Drain proved; time order and non re-emission after flush refuted (insertion order is used)."
  },
  {
   "property": "C06",
   "status": "proved",
   "theorems": [
    "C06_get_waits_until_full",
    "C06_memory_bounded"
   ],
   "note": ""
  },
  {
   "property": "C07",
   "status": "proved",
   "theorems": [
    "C07_counts"
   ],
   "note": ""
  },
  {
   "property": "C08",
   "status": "partial",
   "theorems": [
    "C08_reset_like_new_partial",
    "C08_reset_like_new_after_1980_partial",
    "C08_reset_like_new_refuted"
   ],
   "note": "Proved for COR/VDIF/TBX, and for DRX/DRX8 when later frames are after 1980; refuted for DRX/DRX8 (reset loses the 1980 floor)."
  },
  {
   "property": "C09",
   "status": "partial",
   "theorems": [
    "C09_reorder_is_stable_sort",
    "C09_key_is_id_order_partial",
    "C09_key_is_id_order_refuted"
   ],
   "note": "Stable sort proved; the key is the identifier order for 3-tuples and scalars, refuted for 2-tuples (COR, VDIF with several stations)."
  },
  {
   "property": "C10",
   "status": "proved",
   "theorems": [
    "C10_position_restored",
    "C10_position_restored_split"
   ],
   "note": "Ordinary files and split files, any block of reads/seeks including raising ones."
  },
  {
   "property": "C11",
   "status": "partial",
   "theorems": [
    "C11_split_refines_joined_partial",
    "C11_size",
    "C11_read_is_prefix",
    "C11_read_over_three_parts_refuted",
    "C11_empty_part_ends_reading_refuted",
    "C11_seek_from_end_refuted",
    "C11_read_all_refuted",
    "C11_failed_seek_moves_refuted"
   ],
   "note": "Refinement of the joined file proved for reads not larger than an interior part and seeks from start/current/(0,2); refuted for reads over three parts, empty parts, seek from the end with offset, read(-1), failed seeks. In all cases reads return a prefix of the right bytes."
  },
  {
   "property": "C12",
   "status": "proved",
   "theorems": [
    "C12_drx_decode"
   ],
   "note": "All frames, at any position; every field and all 4096 samples."
  },
  {
   "property": "C13",
   "status": "proved",
   "theorems": [
    "C13_drx_read_total",
    "C13_drx8_read_total",
    "C13_drx_stream",
    "C13_drx8_stream"
   ],
   "note": "Total characterisation on arbitrary byte strings, and streams of well-formed frames, DRX and DRX8."
  },
  {
   "property": "C14",
   "status": "proved",
   "theorems": [
    "C14_drx8_decode"
   ],
   "note": ""
  },
  {
   "property": "C15",
   "status": "proved",
   "theorems": [
    "C15_id_roundtrip",
    "C15_id_injective",
    "C15_drx_or_drx8"
   ],
   "note": ""
  },
  {
   "property": "C16",
   "status": "partial",
   "theorems": [
    "C16_sim_roundtrip_partial",
    "C16_tuning_word_never_written",
    "C16_tuning_word_lost_refuted",
    "C16_invalid_offset_written_refuted",
    "C16_wrong_beam_accepted_refuted"
   ],
   "note": "Everything but the tuning word round-trips; tuning word, frame count and second count are never written (proved, and a load/write/read witness). is_valid=False is ignored for time offsets; beams are masked before validation."
  },
  {
   "property": "C17",
   "status": "partial",
   "theorems": [
    "C17_quantise_nearest_saturating",
    "C17_quantise_idempotent",
    "C17_quantise_monotone",
    "C17_ci8_wraps_refuted"
   ],
   "note": "Proved for floating point samples; refuted for CI8 samples, which wrap."
  },
  {
   "property": "C18",
   "status": "proved",
   "theorems": [
    "C18_cor_decode",
    "C18_cor_hermitian"
   ],
   "note": "Every process history; frame of the channel count the reader assumes; Hermitian property for any bytes. Visibilities are compared as bit patterns."
  },
  {
   "property": "C19",
   "status": "partial",
   "theorems": [
    "C19_cor_stream_partial",
    "C19_stale_cache_refuted",
    "C19_short_file_refuted",
    "C19_imitated_boundary_refuted",
    "C19_cor_read_total"
   ],
   "note": "Stream theorem when the cache assumes n channels, or more with enough data and no imitated frame boundary; refuted for stale caches, short files and imitated boundaries; one-read characterisation for all bytes and histories."
  },
  {
   "property": "C20",
   "status": "partial",
   "theorems": [
    "C20_tbx_stream_partial",
    "C20_short_file_refuted",
    "C20_first_channel_refuted",
    "C20_ci8_sync_refuted",
    "C20_tbx_read_total"
   ],
   "note": "Stream theorem whenever a frame of the assumed size fits into the file; refuted for shorter files, first channels above 32767 and the error type of the integer variant; one-read characterisation for all bytes and histories."
  },
  {
   "property": "C21",
   "status": "proved",
   "theorems": [
    "C21_vdif_decode",
    "C21_vdif_levels",
    "C21_vdif_stream",
    "C21_vdif_total"
   ],
   "note": "Every header field and every sample, for 1/2/4/8 bits, real/complex, any channel count, legacy or not, anywhere in a file; streams of frames until EOFError; totality on arbitrary bytes. float32 values are exact rationals (rounding of the level table not modelled). read_frame_i8 of complex data reads outside its array (see DESIGN.md) and is not covered."
  },
  {
   "property": "C22",
   "status": "partial",
   "theorems": [
    "C22_vdif_write_read",
    "C22_vdif_i8_values",
    "C22_vdif_odd_words_refuted",
    "C22_vdif_partial_word_refuted",
    "C22_vdif_overflow_refuted"
   ],
   "note": "Round trip proved for in-range samples filling whole 8-byte units. The full property (every whole number of words, every value) is refuted by three witnesses."
  },
  {
   "property": "C23",
   "status": "partial",
   "theorems": [
    "C23_drspec_decode",
    "C23_drspec_stream",
    "C23_drspec_total",
    "C23_drspec_in_bounds",
    "C23_drspec_overread_refuted",
    "C23_drspec_mixed_refuted",
    "C23_drspec_norm_refuted",
    "C23_drspec_describe"
   ],
   "note": "Decode, stream, exact in-bounds characterisation and description functions proved for the reader model; the full statement (every format byte, any fills) is false of the code: C23_drspec_overread_refuted, C23_drspec_mixed_refuted, C23_drspec_norm_refuted. Conversion of the normalisation to float is not modelled."
  },
  {
   "property": "C24",
   "status": "partial",
   "theorems": [
    "C24_timetag_round_trip_partial",
    "C24_order",
    "C24_difference",
    "C24_leap_day_refuted"
   ],
   "note": "Round trip proved with explicit floating-point error bounds on days without leap second, order proved for all; the tag round trip is false on every leap-second day: C24_leap_day_refuted. astropy's UTC-TAI arithmetic is modelled after ERFA."
  },
  {
   "property": "C25",
   "status": "partial",
   "theorems": [
    "C25_instant_partial",
    "C25_instant_float",
    "C25_fraction_refuted",
    "C25_pulsar_sum_partial",
    "C25_pulsar_split_partial",
    "C25_pulsar_midnight_refuted",
    "C25_mjd_mpm_partial"
   ],
   "note": "Instant preserved in all cases; exact characterisation of the parts; the claimed ranges are false at negative whole fractions (C25_fraction_refuted) and in the first second of a day (C25_pulsar_midnight_refuted)."
  },
  {
   "property": "C26",
   "status": "partial",
   "theorems": [
    "C26_mjd_there_and_back_partial",
    "C26_datetime_there_and_back_partial",
    "C26_day_count",
    "C26_far_future_refuted"
   ],
   "note": "Both round trips for every day of years 1-9999 with total floating point error below half a microsecond; the day number is the calendar day count; in binary64 the error bound fails from 2131 on (C26_far_future_refuted)."
  },
  {
   "property": "C27",
   "status": "proved",
   "theorems": [
    "C27_word_round_trip",
    "C27_nearest"
   ],
   "note": "All words (integers) with total floating-point error below half a word, nearest word in exact arithmetic."
  },
  {
   "property": "C28",
   "status": "partial",
   "theorems": [
    "C28_delay_partial",
    "C28_gain_partial",
    "C28_swap",
    "C28_mcs_partial",
    "C28_delay_float_refuted",
    "C28_out_of_range_refuted"
   ],
   "note": "Round trips in exact arithmetic over the whole ranges; in binary64 some delay words do not survive (C28_delay_float_refuted); values out of range wrap silently (C28_out_of_range_refuted)."
  },
  {
   "property": "C29",
   "status": "partial",
   "theorems": [
    "C29_flat_to_multi_partial",
    "C29_dimensions_refuted"
   ],
   "note": "All ranks and sizes with dimensions of at least 1, and the size mismatch error; zero and negative dimensions misbehave (C29_dimensions_refuted)."
  },
  {
   "property": "C30",
   "status": "proved",
   "theorems": [
    "C30_in_order",
    "C30_unbroken",
    "C30_gap_near_end_refuted",
    "C30_tuning2_refuted",
    "C30_swapped_tail_refuted",
    "C30_gap_at_eof_refuted",
    "C30_two_beams_refuted"
   ],
   "note": "Proved for any unbroken file, any order within a set and any read lengths, and beyond that for late, missing and bad frames and fillable gaps; what fails beyond the property (gaps near the end, tuning 2 alone, swapped sets at the end, two beams) is recorded as refutations."
  },
  {
   "property": "C31",
   "status": "partial",
   "theorems": [
    "C31_first_frame",
    "C31_first_frame_drx8",
    "C31_skips_old_data",
    "C31_skips_old_data_drx8",
    "C31_no_data",
    "C31_no_data_drx8",
    "C31_unlucky_size",
    "C31_unlucky_size_drx8",
    "C31_short_file",
    "C31_any_recording_refuted",
    "C31_header_in_junk_refuted"
   ],
   "note": "Proved for DRX and DRX8 for every junk without a sync word, at least 32 frames, and file sizes whose look-ahead frames exist; refuted otherwise: sizes just above 1, 2, 4, 8 or 16 MiB and files of fewer than 32 frames raise EOFError, and a stray header skips the first frame."
  },
  {
   "property": "C32",
   "status": "partial",
   "theorems": [
    "C32_filecache_clean_on_open_partial",
    "C32_filecache_new_file_kept_partial",
    "C32_filecache_unlimited",
    "C32_filecache_terminates_partial",
    "C32_filecache_write_counts",
    "C32_filecache_hang_refuted",
    "C32_filecache_after_write_refuted",
    "C32_filecache_append_refuted",
    "C32_filecache_tie_refuted",
    "C32_filecache_lock_leak_refuted",
    "C32_memorycache_clean_partial",
    "C32_memorycache_unlimited",
    "C32_memorycache_new_file_refuted",
    "C32_memorycache_getmtime_refuted"
   ],
   "note": "FileCache over any history of opens, writes, removes and any directory order: when a file has been opened for writing the cache is within its limit or has one entry, the entries removed are the oldest and no more than needed; a file opened with 'w' stays if all others are older; without a limit only remove() removes; cleaning ends if there are no directories.  MemoryCache the same with the time of the last flush().  Refuted: limit after writing, append to the oldest file, ties, subdirectories (endless loop), lock kept after a failed open, a new memory file being thrown away, MemoryCache.getmtime."
  },
  {
   "property": "C33",
   "status": "partial",
   "theorems": [
    "C33_memory_files_partial",
    "C33_truncates",
    "C33_append_refuted",
    "C33_iterate_refuted",
    "C33_read_missing_refuted",
    "C33_write_protected_refuted",
    "C33_nested_open_refuted",
    "C33_truncate_refuted"
   ],
   "note": "Simulation: any program that uses 'w' and 'r' handles as intended (binary mode, any number of files, interleaved, unlimited cache) gets the answers and contents of ordinary files, except that seek() returns None.  Refuted: append mode, iteration, reading a missing file, write protection, nested opens, extending truncate.  Missing: text mode, which decodes n bytes rather than n characters."
  },
  {
   "property": "C34",
   "status": "partial",
   "theorems": [
    "C34_filelock_mutual_exclusion_partial",
    "C34_filelock_one_per_file",
    "C34_filelock_release_lets_in_partial",
    "C34_filelock_fails_only_when_taken_partial",
    "C34_filelock_unlink_refuted",
    "C34_filelock_shared_object_refuted",
    "C34_filelock_reentry_refuted",
    "C34_filelock_acquire_true",
    "C34_filelock_with_timeout_refuted",
    "C34_filelock_readonly_refuted",
    "C34_memorylock_mutual_exclusion",
    "C34_memorylock_free",
    "C34_memorylock_locked_refuted",
    "C34_memorylock_nonblocking_refuted"
   ],
   "note": "FileLock as a transition system over any number of objects and threads, one system call per step, with crashes and removal of the lock file: mutual exclusion, release/crash lets the next attempt in, and failure only when somebody has the file, for schedules in which the file is not removed under a holder, locked objects are not shared, and holders release their own lock; at most one locked object per file without those conditions.  Refuted without them (removal while held, shared object, re-entry).  Also refuted: the body of a with statement runs without the lock after the timeout; an unopenable lock file raises instead of warning; MemoryLock.locked() and acquire(blocking=False).  MemoryLock mutual exclusion proved in full."
  },
  {
   "property": "C35",
   "status": "partial",
   "theorems": [
    "C35_width",
    "C35_monotone",
    "C35_exact",
    "C35_plus_width",
    "C35_download_width",
    "C35_span_refuted",
    "C35_beyond_max_refuted",
    "C35_zero_max",
    "C35_count"
   ],
   "note": "ProgressBar has exactly span characters for every amount from 0 to max, with and without percentage, and runs through its stages in order; exact stage in exact arithmetic; counting. For any rounding function with the listed properties of doubles. Refuted: ProgressBarPlus and DownloadBar have span + 9 characters (proved exactly), amounts beyond max. Colours are not modelled."
  },
  {
   "property": "C36",
   "status": "partial",
   "theorems": [
    "C36_pending_partial",
    "C36_set",
    "C36_temp_restores",
    "C36_save",
    "C36_view_get",
    "C36_set_within_temp_refuted",
    "C36_temp_keyerror_refuted",
    "C36_second_save_refuted",
    "C36_abandoned_written_refuted",
    "C36_view_set_refuted"
   ],
   "note": "Any session of programs with set, failed set, nested set_temp, exceptions, saves and other writers: pending changes are exactly the parameters that differ from the values at load or last save, provided no set() of a parameter is made inside a set_temp() block of the same parameter (refuted otherwise). Exact condition under which a save writes; restoration by set_temp for every block and every exception. Refuted: second save of a session, changes reported abandoned but written, KeyError masked, view().set() fallback."
  },
  {
   "property": "C37",
   "status": "partial",
   "theorems": [
    "C37_round_trip_partial",
    "C37_load_fails_iff",
    "C37_no_file",
    "C37_none_refuted",
    "C37_string_refuted",
    "C37_newline_refuted",
    "C37_no_section_refuted"
   ],
   "note": "Round trip for every configuration whose names are section.item, whose values are denoted by their own text and whose None values are defaults; loading fails iff a line has no '='. Refuted for None over a default, strings that look like other types, edge spaces, newlines. Float repr/parse enter as functions that must agree on the float values present."
  },
  {
   "property": "C38",
   "status": "partial",
   "theorems": [
    "C38_all_pairs",
    "C38_second_list_short",
    "C38_lookup_partial",
    "C38_autocorrelation_refuted"
   ],
   "note": "All pairs once in order, lookup of any cross-correlation; refuted for autocorrelation lookup, which returns the first baseline containing the antenna."
  },
  {
   "property": "C39",
   "status": "proved",
   "theorems": [
    "C39_bits",
    "C39_bits_order",
    "C39_uvfits",
    "C39_unambiguous"
   ],
   "note": "Both packings, their inverses, ordering and absence of collisions within the antenna limits."
  },
  {
   "property": "C40",
   "status": "partial",
   "theorems": [
    "C40_dms",
    "C40_dms_fields",
    "C40_hms_partial",
    "C40_hms_refuted",
    "C40_add_seconds",
    "C40_add_hms_refuted",
    "C40_add_hms_partial",
    "C40_float_refuted"
   ],
   "note": "Degrees exact for every angle; hours exact on [0, 360); refuted for negative angles, angles from 360 degrees, add_hms (hours never change) and binary64 fields off by a minute."
  },
  {
   "property": "C41",
   "status": "proved",
   "theorems": [
    "C41_range_degrees",
    "C41_range_hours",
    "C41_compass"
   ],
   "note": "range_degrees, range_hours and the compass letter in exact arithmetic."
  },
  {
   "property": "C42",
   "status": "partial",
   "theorems": [
    "C42_weekday_partial",
    "C42_midnight_refuted"
   ],
   "note": "Right at every time of every date except exactly midnight; refuted at midnight of even modified Julian days."
  },
  {
   "property": "C43",
   "status": "partial",
   "theorems": [
    "C43_int_list",
    "C43_baseline_list",
    "C43_hostname_list",
    "C43_positive_int",
    "C43_int_list_round_trip",
    "C43_hostname_malformed_refuted",
    "C43_angle_list_empty_refuted",
    "C43_angle_list"
   ],
   "note": "Exact characterisation (iff) of what csv_int_list, csv_baseline_list, csv_hostname_list, positive_int and the angle lists accept, give and reject, for every string; printed integer lists read back. Refuted: IPv4 bytes above 255 are accepted, zero padding of name ranges is lost, and an empty hours/degrees list raises IndexError. The regular expressions are modelled for ASCII digits; the date/time parsers based on strptime are not modelled."
  },
  {
   "property": "C44",
   "status": "partial",
   "theorems": [
    "C44_handlers",
    "C44_filenames",
    "C44_close_all",
    "C44_second_close_refuted",
    "C44_failed_open_refuted"
   ],
   "note": "Handlers and entries by name for every history; file names when nothing is closed twice; close_all closes each exactly once in any order. Refuted: a second close raises KeyError and leaves the name behind; failed constructors stay registered."
  },
  {
   "property": "C45",
   "status": "partial",
   "theorems": [
    "C45_beam_count",
    "C45_frames_per_obs_partial",
    "C45_beam5_fails_refuted",
    "C45_filter_code"
   ],
   "note": "beam count and filter code proved; frames per observation proved for beams 1-4, beam 5 raises IndexError."
  },
  {
   "property": "C46",
   "status": "partial",
   "theorems": [
    "C46_position_kept",
    "C46_cor_description_partial",
    "C46_garbage_skipped",
    "C46_short_file_refuted",
    "C46_tbx_description_partial",
    "C46_tbx_stuck_refuted"
   ],
   "note": "Position always kept; values right for the streams of C19/C20; refuted for short files and after a corrupted TBX frame. get_first_channel and get_first_frame_count are not modelled."
  },
  {
   "property": "C47",
   "status": "partial",
   "theorems": [
    "C47_vdif_buffer_order",
    "C47_vdif_buffer_order_refuted"
   ],
   "note": "Proved below 10^6 frames per second; refuted above."
  },
  {
   "property": "C48",
   "status": "partial",
   "theorems": [
    "C48_vdif_time_partial",
    "C48_frame_samples",
    "C48_frame_offset",
    "C48_write_read_partial",
    "C48_half_second_refuted",
    "C48_header_refuted"
   ],
   "note": "Half-frame round trip when no leap second lies between the day before the epoch and the frame; half a second late in the half-year after a leap second (C48_half_second_refuted); header limits in C48_header_refuted."
  },
  {
   "property": "C49",
   "status": "partial",
   "theorems": [
    "C49_vdif_describe",
    "C49_vdif_rate",
    "C49_vdif_rate_refuted",
    "C49_vdif_uneven_threads_refuted"
   ],
   "note": "Frame size, thread count, frame rate and sample rate of regular recordings; refuted for recordings starting with the last frame of a second, ending within the first second, or with uneven threads."
  },
  {
   "property": "C50",
   "status": "partial",
   "theorems": [
    "C50_zone_partial",
    "C50_zone_refuted"
   ],
   "note": "Exact and invertible for fractions of a second below 0.9995; refuted above (one second late). The local offset is a parameter; the time zone rules of the C library are not modelled."
  },
  {
   "property": "C51",
   "status": "proved",
   "theorems": [
    "C51_mjd",
    "C51_seconds",
    "C51_calendar"
   ],
   "note": "Exact arithmetic; astropy's calendar algorithm on days without a leap second."
  },
  {
   "property": "C52",
   "status": "partial",
   "theorems": [
    "C52_leap_seconds_partial",
    "C52_before_1972",
    "C52_leap_day_refuted"
   ],
   "note": "TAI-UTC on days without a leap second; refuted on leap-second days."
  },
  {
   "property": "C53",
   "status": "partial",
   "theorems": [
    "C53_dots",
    "C53_boomerang",
    "C53_pingpong",
    "C53_flow",
    "C53_small_width_refuted",
    "C53_stop_refuted"
   ],
   "note": "Every text of every run: dots, boomerang (width 2 on), pingpong (4 on), flow (3 on). Refuted for smaller widths and for stop() racing with the drawing thread. Colours are not modelled."
  },
  {
   "property": "C54",
   "status": "partial",
   "theorems": [
    "C54_what_comes_back",
    "C54_round_trip_partial",
    "C54_one_observation",
    "C54_coordinates",
    "C54_high_dr_refuted",
    "C54_settings_refuted",
    "C54_step_refuted",
    "C54_one_polarization_refuted",
    "C54_tbs_gain_refuted",
    "C54_texts_refuted",
    "C54_right_ascension_refuted",
    "C54_other_lines",
    "C54_comment_line_refuted",
    "C54_flag_refuted",
    "C54_out_of_range_refuted",
    "C54_sort_order"
   ],
   "note": "what comes back from every valid project is characterised (C54_what_comes_back); the full round trip holds when settings are not left unset after they were set (C54_round_trip_partial), and is refuted otherwise (carry-over between observations and steps, TBS gain, uniform half-set FEEs, RA rounding to 24 h, missing texts)"
  },
  {
   "property": "C55",
   "status": "partial",
   "theorems": [
    "C55_validate_sound",
    "C55_validate_complete_partial",
    "C55_steps_refuted",
    "C55_no_steps_refuted",
    "C55_overlap_refuted",
    "C55_metatag_refuted",
    "C55_metatag_accepts",
    "C55_metatag_braces"
   ],
   "note": "validate() is sound for non-negative sample counts and complete up to 1023 steps; refuted: 1024 steps, no steps, negative samples, three metatags"
  },
  {
   "property": "C56",
   "status": "partial",
   "theorems": [
    "C56_duration_round_trip",
    "C56_parse_sdf_duration",
    "C56_duration_text",
    "C56_duration_exact",
    "C56_duration_timedelta",
    "C56_duration_number",
    "C56_duration_quantity_refuted"
   ],
   "note": "Round trips and nearest-millisecond theorems proved for all inputs up to 2^30 s or 10^12 ms; refuted for astropy quantities (NameError)."
  },
  {
   "property": "C57",
   "status": "partial",
   "theorems": [
    "C57_start_round_trip",
    "C57_parse_sdf_start_partial",
    "C57_parse_sdf_leap_day_refuted",
    "C57_time_text_partial",
    "C57_last_half_millisecond_refuted",
    "C57_last_half_millisecond_datetime_refuted",
    "C57_datetime_partial",
    "C57_offset_text",
    "C57_offset_one_digit_refuted"
   ],
   "note": "Round trips and nearest-millisecond theorems proved in double precision; refuted for the last half millisecond of a second, one-digit offsets and parse_sdf on leap-second days. Named time zones and LST not modelled."
  },
  {
   "property": "C58",
   "status": "partial",
   "theorems": [
    "C58_sort",
    "C58_sort_order",
    "C58_sort_bad_order",
    "C58_sort_wrong_length_refuted",
    "C58_sort_shared_refuted",
    "C58_sort_large_antenna_refuted",
    "C58_uv_range",
    "C58_antenna_subset",
    "C58_antenna_stands",
    "C58_antenna_bad_argument",
    "C58_append_new",
    "C58_append_replaces",
    "C58_append_mismatch",
    "C58_append_weights_refuted"
   ],
   "note": "refuted parts: wrong-length order, shared polarizations, antennas from 4096 on, unchecked weights"
  },
  {
   "property": "C59",
   "status": "proved",
   "theorems": [
    "C59_copy_independent",
    "C59_bare_copy_independent",
    "C59_selection_independent"
   ],
   "note": "for every program of sort, rephase and append"
  },
  {
   "property": "C60",
   "status": "partial",
   "theorems": [
    "C60_append",
    "C60_copy",
    "C60_sort",
    "C60_uv_range_partial",
    "C60_antenna_subset_partial",
    "C60_uv_range_refuted",
    "C60_antenna_stands_refuted",
    "C60_extend_refuted",
    "C60_append_after_empty_refuted"
   ],
   "note": "get_uv_range and stand selection over several integrations refuted, extend unchecked; proved for integrations that keep equally many baselines"
  },
  {
   "property": "C61",
   "status": "partial",
   "theorems": [
    "C61_append_iff_partial",
    "C61_append_first_refuted",
    "C61_append_more_refuted",
    "C61_extend_refuted",
    "C61_extend",
    "C61_extend_one",
    "C61_new"
   ],
   "note": "the code violates it: append only works where a single visibility is stored; the exact condition is proved"
  },
  {
   "property": "C62",
   "status": "partial",
   "theorems": [
    "C62_to_stokes",
    "C62_to_linear",
    "C62_to_circular",
    "C62_refused",
    "C62_linear_round_trip",
    "C62_circular_keeps_stokes",
    "C62_total_intensity_refuted"
   ],
   "note": "equal intensity refuted for circular (RR+LL = 2I)"
  },
  {
   "property": "C63",
   "status": "partial",
   "theorems": [
    "C63_scale",
    "C63_scale_twice",
    "C63_scale_unit",
    "C63_scale_integrations_partial",
    "C63_scale_integrations_refuted"
   ],
   "note": "several integrations only with the baselines of the first; refuted otherwise"
  },
  {
   "property": "C64",
   "status": "partial",
   "theorems": [
    "C64_rephase",
    "C64_there_and_back",
    "C64_below_horizon",
    "C64_integrations",
    "C64_integrations_atomic_refuted",
    "C64_no_polarizations_refuted"
   ],
   "note": "all-or-nothing refuted over several integrations; a data set without polarizations is not moved"
  },
  {
   "property": "C65",
   "status": "partial",
   "theorems": [
    "C65_wrap",
    "C65_fill",
    "C65_round_trip",
    "C65_other_sizes",
    "C65_fill_negative_refuted",
    "C65_single_frequency_refuted"
   ],
   "note": "Every waterfall and dispersion measure in double precision; refuted: fill with a negative dispersion measure, a single frequency."
  },
  {
   "property": "C66",
   "status": "partial",
   "theorems": [
    "C66_samples",
    "C66_convolution",
    "C66_pieces",
    "C66_pieces_convolution",
    "C66_too_short",
    "C66_single_previous_refuted",
    "C66_remainder_refuted",
    "C66_end_refuted"
   ],
   "note": "Every sample characterised for any window size and response; pieces = whole proved for pieces of half windows or responses within a quarter window; refuted: remainder beyond half a window, end without next data, single previous sample."
  },
  {
   "property": "C67",
   "status": "partial",
   "theorems": [
    "C67_history",
    "C67_window_size_partial",
    "C67_small_dm_refuted",
    "C67_no_dispersion_refuted"
   ],
   "note": "History independence proved; window size proved in exact arithmetic for delays above one sample; refuted for delays up to half a sample and for no dispersion."
  },
  {
   "property": "C68",
   "status": "partial",
   "theorems": [
    "C68_read_back",
    "C68_baseline_order_refuted",
    "C68_same_name_refuted",
    "C68_missing_last_refuted",
    "C68_missing_first_refuted"
   ],
   "note": "Read back for complete integrations with one order of baselines and one position per source name; the other cases are refuted with the files they give."
  },
  {
   "property": "C69",
   "status": "partial",
   "theorems": [
    "C69_open",
    "C69_polarizations_refuted",
    "C69_frequencies_refuted",
    "C69_one_channel_refuted",
    "C69_stands_refuted"
   ],
   "note": "For polarizations that follow each other, regular ascending bands of at least two channels and stands up to 999; the other cases are refuted."
  },
  {
   "property": "C70",
   "status": "proved",
   "theorems": [
    "C70_row_order"
   ],
   "note": "For the file of every list of complete integrations."
  },
  {
   "property": "C71",
   "status": "partial",
   "theorems": [
    "C71_incomplete",
    "C71_written_once",
    "C71_unknown_name",
    "C71_too_many",
    "C71_failed_call_refuted"
   ],
   "note": "Refusals are proved; that a failed set_stokes changes nothing is refuted."
  },
  {
   "property": "C72",
   "status": "partial",
   "theorems": [
    "C72_cor_in_order",
    "C72_cor_step",
    "C72_cor_step_refuted",
    "C72_cor_whole_file_refuted",
    "C72_cor_never_empty"
   ],
   "note": "Proved for recordings without missing integrations whose time step the reader computes right (shown to be right or one tick too small for every integration time); refuted for read() without a duration and for the step of 0.29 s integrations."
  },
  {
   "property": "C73",
   "status": "partial",
   "theorems": [
    "C73_tbx_in_order",
    "C73_tbx_step",
    "C73_tbx_durations",
    "C73_tbx_after_offset_refuted",
    "C73_tbx_other_step_refuted",
    "C73_tbx_whole_file_refuted"
   ],
   "note": "Proved with gaps for given numbers of spectra and with durations for complete recordings; refuted after offset(), for gaps in data with another step than 8192 and for read() without a duration of incomplete recordings."
  },
  {
   "property": "C74",
   "status": "partial",
   "theorems": [
    "C74_spec_reads",
    "C74_spec_offset",
    "C74_spec_offset_near",
    "C74_spec_damaged_refuted",
    "C74_spec_gap_refuted",
    "C74_spec_single_refuted",
    "C74_spec_cut_refuted",
    "C74_spec_backwards_refuted",
    "C74_spec_missing_product"
   ],
   "note": "Proved for recordings of good frames with steps of at most 1.001 integration times, from the start and after offset(); refuted for damaged and cut-off frames, gaps, backward jumps and files of one frame. Times are exact rationals in the model."
  },
  {
   "property": "C75",
   "status": "partial",
   "theorems": [
    "C75_drx",
    "C75_drx8",
    "C75_drspec",
    "C75_tbx",
    "C75_cor",
    "C75_answer",
    "C75_short_refuted",
    "C75_imitated_refuted",
    "C75_damaged_start_refuted",
    "C75_drspec_damaged_refuted"
   ],
   "note": "Proved: DRX and DRX8 files with up to one frame of junk before them, DR spectrometer, TBX and COR files from their first byte on (TBX and COR: at least 16448 bytes, after any history; no stray sync words) are opened as what they are; any answer is backed by frame marks in the file and the file is rewound. Refuted: short TBX/COR/DRX8 files, a stray sync word in DRX8 data, TBX and DR spectrometer files that start within a frame."
  },
  {
   "property": "C76",
   "status": "proved",
   "theorems": [
    "C76_spectra",
    "C76_frequencies",
    "C76_answer",
    "C76_shift_overread_refuted",
    "C76_shift_even"
   ],
   "note": "Exact arithmetic, the transform as a parameter. The rotation of odd channel counts reads four bytes beyond the result (C76_shift_overread_refuted); it does not affect the values."
  },
  {
   "property": "C77",
   "status": "partial",
   "theorems": [
    "C77_stokes",
    "C77_bound",
    "C77_pairs",
    "C77_counts",
    "C77_pairs_refuted"
   ],
   "note": "Means, inequality and refusal proved for every input; stands are matched only if X and Y antennas come in the same order (C77_pairs), refuted otherwise."
  },
  {
   "property": "C78",
   "status": "proved",
   "theorems": [
    "C78_correlation",
    "C78_lag",
    "C78_aligned",
    "C78_conjugate",
    "C78_overlap_refuted",
    "C78_overlap_killed",
    "C78_order_refuted",
    "C78_counts_refuted",
    "C78_polarization_names"
   ],
   "note": "Exact arithmetic; transform, exp and filter bank weights are parameters. The conditions in the statement are needed: C78_overlap_refuted, C78_overlap_killed, C78_order_refuted, C78_counts_refuted."
  },
  {
   "property": "C79",
   "status": "proved",
   "theorems": [
    "C79_correlation",
    "C79_one_stand_refuted"
   ],
   "note": "Exact arithmetic; exp is a parameter. Distinct stands are needed: C79_one_stand_refuted."
  },
  {
   "property": "C80",
   "status": "partial",
   "theorems": [
    "C80_stokes_partial",
    "C80_uv_refuted",
    "C80_clip_refuted",
    "C80_gain_refuted"
   ],
   "note": "I, Q of all baselines and all four parameters of auto-correlations without clipping and gain correction (C80_stokes_partial). The rest is false of the code: C80_uv_refuted, C80_clip_refuted, C80_gain_refuted."
  },
  {
   "property": "C81",
   "status": "partial",
   "theorems": [
    "C81_stokes_partial",
    "C81_uv_refuted",
    "C81_delays_refuted"
   ],
   "note": "I, Q of all baselines and all four parameters of auto-correlations when X and Y delays agree (C81_stokes_partial). The rest is false of the code: C81_uv_refuted, C81_delays_refuted."
  },
  {
   "property": "C82",
   "status": "partial",
   "theorems": [
    "C82_mean_robust_partial",
    "C82_mean_repeated_refuted",
    "C82_mean_order",
    "C82_mean_moved",
    "C82_mean_stretched_partial",
    "C82_mean_small_refuted",
    "C82_mean_few"
   ],
   "note": "proved for data without a value repeated by half of the numbers; otherwise refuted (fallback on the mean deviation)"
  },
  {
   "property": "C83",
   "status": "partial",
   "theorems": [
    "C83_std_total",
    "C83_std_robust_partial",
    "C83_std_repeated_refuted",
    "C83_std_three_refuted",
    "C83_std_order",
    "C83_std_moved",
    "C83_std_stretched_partial"
   ],
   "note": "total for four numbers or more; bounded by the spread of most numbers unless half are equal, where it is refuted"
  },
  {
   "property": "C84",
   "status": "partial",
   "theorems": [
    "C84_mode_range",
    "C84_mode_order",
    "C84_mode_moved",
    "C84_mode_narrowest_partial",
    "C84_mode_even_refuted",
    "C84_mode_three_refuted",
    "C84_mode_equal_refuted"
   ],
   "note": "range, order, scaling, narrowest half for odd counts; refuted for even counts, three points and equal numbers"
  },
  {
   "property": "C85",
   "status": "partial",
   "theorems": [
    "C85_kurtosis_range",
    "C85_kurtosis_zero",
    "C85_kurtosis_scale",
    "C85_kurtosis_fft",
    "C85_kurtosis_rows_partial",
    "C85_kurtosis_rows_refuted"
   ],
   "note": "proved for one list; along axis 1 refuted unless the matrix is square"
  },
  {
   "property": "C86",
   "status": "partial",
   "theorems": [
    "C86_line_exact_partial",
    "C86_line_close_refuted",
    "C86_poly_through_partial",
    "C86_poly_constant_refuted",
    "C86_weights"
   ],
   "note": "exact lines and polynomials of order 1 and more; refuted for order 0 and very close points; weighted iteration not modelled"
  },
  {
   "property": "C87",
   "status": "partial",
   "theorems": [
    "C87_delay",
    "C87_direction",
    "C87_moved",
    "C87_outriggers_refuted"
   ],
   "note": "calc_delay on exact numbers. The formula holds whenever a stand up to 256 is in the array; for arrays of higher stands only it is NaN (C87_outriggers_refuted)."
  },
  {
   "property": "C88",
   "status": "partial",
   "theorems": [
    "C88_beam",
    "C88_coherent",
    "C88_power",
    "C88_errors",
    "C88_no_good_refuted",
    "C88_circular",
    "C88_stokes_v_refuted"
   ],
   "note": "Exact numbers; data with as many rows as antennas. No good antenna gives zeros (C88_no_good_refuted); Stokes V against the spectrometer (C88_stokes_v_refuted)."
  },
  {
   "property": "C89",
   "status": "partial",
   "theorems": [
    "C89_downsample",
    "C89_downsample_zero",
    "C89_regrid",
    "C89_regrid_exact",
    "C89_regrid_outside",
    "C89_smooth",
    "C89_smooth_middle",
    "C89_smooth_linear",
    "C89_smooth_constant",
    "C89_smooth_line_partial",
    "C89_smooth_line_refuted",
    "C89_smooth_errors",
    "C89_smooth_equal_refuted"
   ],
   "note": "Exact numbers. Straight lines are bent at the ends (C89_smooth_line_refuted) and a window as long as the signal loses one number (C89_smooth_equal_refuted)."
  },
  {
   "property": "C90",
   "status": "partial",
   "theorems": [
    "C90_planes",
    "C90_room",
    "C90_lone_plane_refuted",
    "C90_overrun_refuted"
   ],
   "note": "Proved with the word in front of the array as a parameter; refuted for data in a single plane and for more than 1024 planes."
  },
  {
   "property": "C91",
   "status": "partial",
   "theorems": [
    "C91_cells",
    "C91_total",
    "C91_folded",
    "C91_outside_refuted"
   ],
   "note": "Proved for visibilities whose cells stay inside the array; far ones refuted."
  },
  {
   "property": "C92",
   "status": "partial",
   "theorems": [
    "C92_projected",
    "C92_flat",
    "C92_static_refuted"
   ],
   "note": "Proved for linear transforms that are parameters of the model; the static normalization refuted."
  },
  {
   "property": "C93",
   "status": "partial",
   "theorems": [
    "C93_single",
    "C93_last_only_refuted",
    "C93_mask_ignored_refuted"
   ],
   "note": "One data set proved; collections and masks refuted."
  },
  {
   "property": "C94",
   "status": "partial",
   "theorems": [
    "C94_natural",
    "C94_uniform_partial",
    "C94_briggs_partial",
    "C94_taper",
    "C94_repeated_refuted",
    "C94_beam_term_partial",
    "C94_overwritten_refuted",
    "C94_beam_refuted"
   ],
   "note": "What each scheme hands over is proved; that the object is left alone is refuted for uniform and Briggs weighting, as is a finite beam."
  },
  {
   "property": "C95",
   "status": "proved",
   "theorems": [
    "C95_minor",
    "C95_flux",
    "C95_point_beam",
    "C95_empty"
   ],
   "note": "minor cycle of deconv.py on exact numbers"
  },
  {
   "property": "C96",
   "status": "partial",
   "theorems": [
    "C96_shares",
    "C96_interpolated",
    "C96_clean_partial",
    "C96_edge_refuted",
    "C96_before_first_refuted",
    "C96_last_row_refuted",
    "C96_nothing_refuted"
   ],
   "note": "Missing: double precision, NaN in the image, the Gaussian fit (offsets at or right of the cutout's start are assumed); refuted at the edges and when nothing is removed (C96_edge_refuted, C96_last_row_refuted, C96_before_first_refuted, C96_nothing_refuted)."
  },
  {
   "property": "C97",
   "status": "partial",
   "theorems": [
    "C97_course_partial",
    "C97_not_negative",
    "C97_turns",
    "C97_worse_refuted",
    "C97_no_turn_refuted"
   ],
   "note": "Missing: double precision, the simulation. Refuted: a worse turn does not go back (C97_worse_refuted); NameError without a turn (C97_no_turn_refuted)."
  },
  {
   "property": "C98",
   "status": "partial",
   "theorems": [
    "C98_counts_partial",
    "C98_bounded",
    "C98_off",
    "C98_disable_drops",
    "C98_ignore_refuted",
    "C98_clash_refuted",
    "C98_transparent",
    "C98_method_partial",
    "C98_class",
    "C98_read_only"
   ],
   "note": "Counts, bounds, switching off and transparency for all histories; ignore() not switching off and the loss of one of two logs of a second are refuted; keyword-only self in a tracked method is excluded."
  },
  {
   "property": "C99",
   "status": "partial",
   "theorems": [
    "C99_not_lost_partial",
    "C99_honest",
    "C99_week",
    "C99_half_refuted",
    "C99_twice_refuted"
   ],
   "note": "Kept unless sent, honest and weekly for all interleavings without half-written logs at reading; removal of unparsed logs and double sending refuted."
  },
  {
   "property": "C100",
   "status": "partial",
   "theorems": [
    "C100_fetch_gives",
    "C100_failure",
    "C100_whole_partial",
    "C100_young",
    "C100_short_refuted",
    "C100_crash_refuted",
    "C100_refresh_refuted",
    "C100_lost_refuted"
   ],
   "note": "Order of the sources, failure and wholeness under complete transfers for all cases; short transfers, crashes, stale refresh and the lost copy refuted."
  },
  {
   "property": "C101",
   "status": "partial",
   "theorems": [
    "C101_round_trip_partial",
    "C101_section_after_value_refuted",
    "C101_empty_section_refuted",
    "C101_comment_in_value_refuted",
    "C101_line_after_value_refuted",
    "C101_colon_in_name_refuted",
    "C101_wrapped"
   ],
   "note": "Round trip for trees in which sections come before the values of their level and are not empty, with names without colon, comment character or leading dots; the other cases are refuted."
  },
  {
   "property": "C102",
   "status": "proved",
   "theorems": [
    "C102_box"
   ],
   "note": "One-character comments, automatic width."
  },
  {
   "property": "C103",
   "status": "partial",
   "theorems": [
    "C103_read",
    "C103_index",
    "C103_short_file",
    "C103_brace_refuted"
   ],
   "note": "Any declarations, values and paddings; both byte orders. Refuted for a comment with a brace; a short file is completed with zeros (C103_short_file)."
  },
  {
   "property": "C104",
   "status": "partial",
   "theorems": [
    "C104_session_partial",
    "C104_DR5_refuted",
    "C104_session_cut_refuted",
    "C104_observation",
    "C104_observation_cut",
    "C104_observation_refused"
   ],
   "note": "Observation files fully, including every truncation. Session files without DR5 and truncation, which are refuted."
  },
  {
   "property": "C105",
   "status": "partial",
   "theorems": [
    "C105_script_partial",
    "C105_ends",
    "C105_refused",
    "C105_long_refuted",
    "C105_data_refuted"
   ],
   "note": "Any number of commands with data free of NUL and at most 256 bytes; refuted beyond."
  },
  {
   "property": "C106",
   "status": "partial",
   "theorems": [
    "C106_member",
    "C106_no_member_refuted",
    "C106_observations",
    "C106_valid_refuted",
    "C106_opened_partial",
    "C106_opened_refuted"
   ],
   "note": "Members by name, order of observations; refuted for missing members, is_valid and a tarball opened twice in a row."
  },
  {
   "property": "C107",
   "status": "partial",
   "theorems": [
    "C107_sdm_partial",
    "C107_DR5_refuted",
    "C107_short_refuted",
    "C107_str_refuted",
    "C107_update",
    "C107_stand_refuted",
    "C107_in_place_refuted"
   ],
   "note": "Complete files except DR5; refuted for DR5, short files, str(), stand 0 and the given antennas being changed."
  },
  {
   "property": "C108",
   "status": "proved",
   "theorems": [
    "C108_station_read"
   ],
   "note": "All text files that are well formed, complete and wired consistently; floats are kept as texts."
  },
  {
   "property": "C109",
   "status": "partial",
   "theorems": [
    "C109_attenuation_partial",
    "C109_attenuation_refuted",
    "C109_third_attenuator_refuted"
   ],
   "note": "Proved when the stand with the cable's number is set like the antenna's stand (or the stand is least attenuated, for higher cable numbers); refuted otherwise: attenuations are applied by cable number. ASP_AT3[n] stores the value of ASP_AT1."
  },
  {
   "property": "C110",
   "status": "partial",
   "theorems": [
    "C110_refused",
    "C110_other_indices_refuted",
    "C110_incomplete_refuted"
   ],
   "note": "Proved: other versions, non-numbers and indices beyond the declared number are refused anywhere in the file. Refuted: index 0, a missing index and antenna 0 change another part; ARB_PORT overwrites the rack; a missing ARB_ID is refused although it has a default."
  },
  {
   "property": "C111",
   "status": "proved",
   "theorems": [
    "C111_uvw",
    "C111_axes_unique",
    "C111_closure",
    "C111_refused"
   ],
   "note": "Real arithmetic (standard library reals and their axioms); rounding is not modelled."
  },
  {
   "property": "C112",
   "status": "partial",
   "theorems": [
    "C112_track",
    "C112_ellipse",
    "C112_refused",
    "C112_dms_refuted",
    "C112_ends_refuted"
   ],
   "note": "Every point of the track and the ellipse proved in real arithmetic; refuted: astro.dms declinations, NaN at the ends in double precision."
  },
  {
   "property": "C113",
   "status": "partial",
   "theorems": [
    "C113_read_back",
    "C113_dates",
    "C113_weights_refuted",
    "C113_close_integrations_refuted"
   ],
   "note": "read back and dates proved; weights are lost and integrations too close in single precision are merged (refuted)"
  },
  {
   "property": "C114",
   "status": "partial",
   "theorems": [
    "C114_open",
    "C114_stands_refuted",
    "C114_two_bands_refuted"
   ],
   "note": "proved for stands below 1000 and one frequency setup; otherwise refuted"
  },
  {
   "property": "C115",
   "status": "partial",
   "theorems": [
    "C115_group_order",
    "C115_baseline_order_refuted"
   ],
   "note": "order by time and stands proved; order by baseline number proved for stands below 256, refuted in general"
  },
  {
   "property": "C116",
   "status": "proved",
   "theorems": [
    "C116_refuses",
    "C116_data"
   ],
   "note": ""
  },
  {
   "property": "C117",
   "status": "partial",
   "theorems": [
    "C117_what_comes_back",
    "C117_round_trip_partial",
    "C117_one_scan",
    "C117_proper_motion",
    "C117_alternates_refuted",
    "C117_settings_refuted",
    "C117_alternate_motion_refuted",
    "C117_remarks_refuted",
    "C117_scans_made"
   ],
   "note": "What is read from a written file is given exactly; the round trip holds when what one scan sets the later ones set as well; five refutations (values kept from scan to scan)."
  },
  {
   "property": "C118",
   "status": "partial",
   "theorems": [
    "C118_valid",
    "C118_only_valid_written",
    "C118_answer_partial",
    "C118_answer_refuted"
   ],
   "note": "validate() is equivalent to a separate description of good runs; it answers unless a scan with alternate phase centers has no tuning (ZeroDivisionError, refuted)."
  },
  {
   "property": "C119",
   "status": "partial",
   "theorems": [
    "C119_every_station",
    "C119_valid_sessions",
    "C119_made_partial",
    "C119_fresh_project_refuted",
    "C119_remarks_refuted"
   ],
   "note": "One valid session definition per station with the same observations; exactly when they can be made; refuted: a fresh project, a tracked scan without remarks, a run without scans."
  },
  {
   "property": "C120",
   "status": "partial",
   "theorems": [
    "C120_file",
    "C120_mode",
    "C120_other_files",
    "C120_failed_switch_refuted",
    "C120_warning_level_refuted",
    "C120_handler",
    "C120_detached"
   ],
   "note": "delivery to files and handlers proved for all histories; refuted: a failed switch of files stops the log, captured warnings ignore the level"
  },
  {
   "property": "C121",
   "status": "partial",
   "theorems": [
    "C121_pattern",
    "C121_module_filter_refuted",
    "C121_undone"
   ],
   "note": "matching and undoing proved; refuted: module patterns silence everything"
  },
  {
   "property": "C122",
   "status": "partial",
   "theorems": [
    "C122_copies_partial",
    "C122_twice_refuted",
    "C122_stream"
   ],
   "note": "the exact number of copies proved for histories that keep the default handler; refuted: messages appear twice after enabling and still appear after disabling"
  },
  {
   "property": "C123",
   "status": "proved",
   "theorems": [
    "C123_gain",
    "C123_round_trip",
    "C123_back",
    "C123_domain",
    "C123_units"
   ],
   "note": "over the reals; uses the standard library's axioms of the reals"
  },
  {
   "property": "C124",
   "status": "proved",
   "theorems": [
    "C124_sefd",
    "C124_area",
    "C124_power",
    "C124_power_round_trip",
    "C124_domain"
   ],
   "note": "over the reals; uses the standard library's axioms of the reals"
  },
  {
   "property": "C125",
   "status": "partial",
   "theorems": [
    "C125_shown",
    "C125_plain",
    "C125_no_tag",
    "C125_braces_refuted",
    "C125_labels_refuted",
    "C125_depth_refuted"
   ],
   "note": "proved for all texts without braces, backslashes, newlines and escapes and tags to a depth of ten; refuted: deeper tags, newlines in tags, a text that ends with two braces, an unmatched end"
  },
  {
   "property": "C126",
   "status": "proved",
   "theorems": [
    "C126_mapping"
   ],
   "note": "LWA and PSRCAT readers"
  },
  {
   "property": "C127",
   "status": "proved",
   "theorems": [
    "C127_lwa_file"
   ],
   "note": "Floats abstract; names without spaces"
  },
  {
   "property": "C128",
   "status": "proved",
   "theorems": [
    "C128_psr_file"
   ],
   "note": "Floats abstract; well-formed right ascensions"
  },
  {
   "property": "C129",
   "status": "partial",
   "theorems": [
    "C129_lwa_reported_partial",
    "C129_lwa_reported_refuted",
    "C129_psr_first_refuted",
    "C129_psr_abort_refuted",
    "C129_psr_last_refuted"
   ],
   "note": "Short lines, angles out of range and malformed right ascensions are not reported as described: refuted"
  },
  {
   "property": "C130",
   "status": "proved",
   "theorems": [
    "C130_factory",
    "C130_retry"
   ],
   "note": "Constructions have arbitrary outcomes"
  },
  {
   "property": "C131",
   "status": "partial",
   "theorems": [
    "C131_copied",
    "C131_duration",
    "C131_plain_refuted"
   ],
   "note": "C131_copied and C131_duration: with -r or -d, for every file, layout and duration. C131_plain_refuted: with neither option nothing is ever written (ValueError in the file name)."
  },
  {
   "property": "C132",
   "status": "partial",
   "theorems": [
    "C132_aligned_partial",
    "C132_aligned_refuted"
   ],
   "note": "C132_aligned_partial: when the position reached is at a first frame. C132_aligned_refuted: in every other case the first frame of the next capture is left out and the split begins with the frame after it."
  },
  {
   "property": "C133",
   "status": "partial",
   "theorems": [
    "C133_numbers",
    "C133_mcs",
    "C133_clocks_partial",
    "C133_midnight_refuted",
    "C133_samples_partial",
    "C133_samples_refuted",
    "C133_formats",
    "C133_order"
   ],
   "note": "C133_numbers, C133_mcs, C133_formats, C133_order in full; C133_clocks_partial and C133_samples_partial: the MCS millisecond may be 86400000 (C133_midnight_refuted), a sample count comes back only for whole seconds (C133_samples_refuted)."
  },
  {
   "property": "C134",
   "status": "partial",
   "theorems": [
    "C134_runs",
    "C134_empty_refuted",
    "C134_symmetric",
    "C134_statistic"
   ],
   "note": "C134_runs for every non-empty sequence, C134_symmetric, C134_statistic; C134_empty_refuted: one run is counted for no values."
  },
  {
   "property": "C135",
   "status": "partial",
   "theorems": [
    "C135_value",
    "C135_bounds",
    "C135_invariant",
    "C135_columns",
    "C135_rows_partial",
    "C135_rows_refuted",
    "C135_whole_refuted",
    "C135_spectra"
   ],
   "note": "C135_value, C135_bounds, C135_invariant, C135_columns, C135_spectra in full; C135_rows_partial: rows of square arrays only; C135_rows_refuted and C135_whole_refuted: the number of rows is taken for the number of values summed over."
  },
  {
   "property": "C136",
   "status": "partial",
   "theorems": [
    "C136_moments",
    "C136_restored_partial",
    "C136_restored_refuted",
    "C136_left_refuted"
   ],
   "note": "C136_moments; C136_restored_partial: when limits are returned. C136_restored_refuted, C136_left_refuted: after an exception numpy errors stay set to raise."
  },
  {
   "property": "C137",
   "status": "proved",
   "theorems": [
    "C137_deconvolved"
   ],
   "note": "C137_deconvolved, for every broadening function of one value per time that does not vanish altogether, on exact numbers."
  },
  {
   "property": "C138",
   "status": "partial",
   "theorems": [
    "C138_best",
    "C138_range",
    "C138_no_solution_refuted"
   ],
   "note": "C138_best and C138_range in full; C138_no_solution_refuted: the RuntimeError is never raised, an empty range gives UnboundLocalError and no numeric figure of merit KeyError."
  },
  {
   "property": "C139",
   "status": "partial",
   "theorems": [
    "C139_sources_partial",
    "C139_flat_image_refuted",
    "C139_small_image"
   ],
   "note": "Proved for a threshold above the least value of the convolved image; otherwise a flat image gives an IndexError (refuted).  Convolution and background are not modelled."
  },
  {
   "property": "C140",
   "status": "partial",
   "theorems": [
    "C140_center_refuted",
    "C140_center_partial"
   ],
   "note": "Refuted: the offsets of the center along the two axes are exchanged; right where they agree."
  },
  {
   "property": "C141",
   "status": "partial",
   "theorems": [
    "C141_updated_partial",
    "C141_error_partial",
    "C141_given_antennas_refuted",
    "C141_stand_zero_refuted"
   ],
   "note": "The statuses are right for stands of the table; refuted: the given antennas are changed, and stand 0 gets the status of the last stand."
  },
  {
   "property": "C142",
   "status": "proved",
   "theorems": [
    "C142_elements",
    "C142_wrong_length"
   ],
   "note": "For dimensions that are not negative; with a zero dimension only the length check is stated."
  },
  {
   "property": "C143",
   "status": "partial",
   "theorems": [
    "C143_intervals_partial",
    "C143_dr5_refuted"
   ],
   "note": "Refuted for DR5, proved for all other subsystems."
  },
  {
   "property": "C144",
   "status": "partial",
   "theorems": [
    "C144_text_refuted"
   ],
   "note": "Refuted for every status."
  },
  {
   "property": "C145",
   "status": "partial",
   "theorems": [
    "C145_values_partial",
    "C145_texts_partial",
    "C145_signed_partial",
    "C145_floats_refuted",
    "C145_zero_byte_refuted"
   ],
   "note": "Proved for texts and for numbers of any type without zero bytes; refuted for any other number but 0: it is read as 0."
  },
  {
   "property": "C146",
   "status": "partial",
   "theorems": [
    "C146_loaded",
    "C146_names_partial",
    "C146_same_name_refuted"
   ],
   "note": "C146_loaded in full; names proved when names and indices are distinct and no name starts with a digit; refuted for a name of two indices."
  },
  {
   "property": "C147",
   "status": "partial",
   "theorems": [
    "C147_tiles_partial",
    "C147_overlap_refuted"
   ],
   "note": "Along one axis. The tiles are contiguous, half a window wide, with their centers to a quarter of a pixel; that they are a window wide and overlap, as documented, is refuted."
  },
  {
   "property": "C148",
   "status": "partial",
   "theorems": [
    "C148_value_partial",
    "C148_constant_refuted"
   ],
   "note": "In rational numbers with the median as a parameter; tiles that are not constant have a value. Refuted for constant tiles, whose value is nan."
  },
  {
   "property": "C149",
   "status": "partial",
   "theorems": [
    "C149_added",
    "C149_second_polarization_refuted"
   ],
   "note": "For writers of data sets with baselines and channels. Refuted for a second polarization of a time that is there already, which is a ValueError."
  },
  {
   "property": "C150",
   "status": "partial",
   "theorems": [
    "C150_sets",
    "C150_sorted_partial",
    "C150_writer_changed_refuted",
    "C150_set_zero_refuted",
    "C150_range",
    "C150_twice_refuted"
   ],
   "note": "With include_auto, so without a cut of the baselines. Refuted for set 0, which is the last set, and for the writer staying as it was, since its own data sets are sorted."
  },
  {
   "property": "C151",
   "status": "partial",
   "theorems": [
    "C151_level_partial",
    "C151_range_partial",
    "C151_corner_refuted"
   ],
   "note": "The level is kept away from the corners, the range away from the edges. Refuted at the corners, where the result is zero whatever the tiles are."
  },
  {
   "property": "C152",
   "status": "partial",
   "theorems": [
    "C152_bank_partial",
    "C152_taps_partial",
    "C152_rest",
    "C152_linear_partial",
    "C152_errors",
    "C152_one_sample_refuted"
   ],
   "note": "For real signals in rational numbers; weights and factors of the transform are parameters. Refuted for a signal of one sample, which is repeated instead of refused."
  }
 ]
}