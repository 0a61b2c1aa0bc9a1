# A Rocq model of lwa-project/lsl

## How the development is organised

All Coq sources are in `rocq/theories` (logical name `Verif`, Coq 8.16.1, standard library only unless said otherwise).

* `Lib*.v`      – general lemmas (lists, bits, bytes), nothing about LSL.
* `M_*.v`       – the model: total computable Gallina functions mirroring the
                  code branch by branch.  Every definition cites file and lines.
                  Exceptions are values (`Err ...`, `option`, result types).
* `S_*.v`       – small specifications that do not use the model's helpers.
* `P_*.v`       – proofs.
* `T_*.v`       – the property theorems only: `Theorem ... exact lemma. Qed.`,
                  `Print Assumptions`, and an `Example` showing the hypotheses
                  are met by a concrete non-trivial case.

Conventions: Python integers are `Z`; bytes are `Z` in [0,256); C++ fixed width
integers are `Z` with the wrap written out; files are `(content : list Z, pos : Z)`.

## What is modelled for each property

| id | model | proof |
|----|-------|-------|
| C01, C02 | frame buffer as state + `append`/`get` over an operation list | invariant "done mark < every buffered key", induction over the history |
| C03 | same, with ghost-free accounting: multiset of real frames | induction over the history, permutation |
| C04 | same; five frame types as instances | proved without duplicates, refuted with duplicates (the code accepts `count == nFrames` unchecked) |
| C05 | `flush` as iteration of `get key` over the insertion-ordered key list | drain proved; order refuted |
| C06 | `peek`/`get` | case analysis + induction |
| C07 | `get_max_frames` of the five classes | induction over lists |
| C08 | `reset` | proved for COR/VDIF/TBX, refuted for DRX/DRX8 (1980 floor lost) |
| C09 | `list.sort(key=cmp_to_key(..))` as a stable insertion sort | Permutation + Sorted + stability |
| C10, C11 | files as byte list + position; `SplitFileWrapper` over a list of parts | refinement to the concatenated file; refuted for reads spanning >2 parts and for `whence=2` |
| C12, C13, C14 | `read_drx`, `read_drx8` over byte lists, LUTs | decode(encode) with an independent big-endian field specification; stream induction |
| C15 | identifier bit packing | finite sweep lifted |
| C16, C17 | `sim/drx.py` writer against the reader | round trip for all fields except the tuning word; refutation of the latter |
| C18, C19 | `read_cor` with its static cache as explicit state | state machine invariant |
| C46 | description loops of cor.py/tbx.py over the readers | loop = successive reads; stream lemmas |
| C20 | `read_tbx` with static cache as explicit state | state machine; refutation for short trailing frames |
| C21, C22, C49 | VDIF header words, N-bit unpacking, writer, description loops | bit-field lemmas, round trip, dictionary invariants over rows of a regular recording |
| C47 | figure of merit of the VDIF buffer | arithmetic; witness |
| C48 | VDIF reference epochs, leap seconds | calendar arithmetic |
| C23 | DR spectrometer header and dispatch | case analysis over all 256 format bytes, refutations for unusual formats |
| C24, C25 | timestamps over exact rationals with an error term | arithmetic |
| C26 | calendar algorithms over Z | Gregorian day-count proof |
| C27, C28 | fixed-point conversions over exact rationals | arithmetic |
| C29 | `flat_to_multi` | induction over the shape |
| C30 | `DRXFile.read` / `DRX8File.read` over the file as a list of slots (frame, bad frame, cut-off end) and the frame buffer (M_Ldp) | loop invariant relating buffer, slots and output arrays |
| C31 | `_ready_file` over the bytes of the file (M_LdpReady) | induction on the junk, frame arithmetic |
| C32 | clean-up loop and the operations of FileCache and MemoryCache over entries with sizes and times (M_Cache) | induction on the loop and the history |
| C33 | MemoryFile over bytes and position, against POSIX files in S_Cache | simulation |
| C34 | FileLock as a transition system over any number of objects, threads, crashes and removals of the lock file; MemoryLock over its RLock (M_Lock) | invariants |
| C35 | the texts of the three bars (M_Bar) over any rounding function with the properties of doubles listed in S_Bar; amounts as integers | arithmetic |
| C53 | the texts of the busy indicators as a state machine (M_Bar); one drawing in four steps for the race with stop() | closed form of the state after k texts |
| C54 | projects with one session, render() to text and parse_sdf() line by line with its temporary dictionaries (M_Sdf); what comes back as a function [back], and the condition under which it is a copy (S_Sdf) | induction over lines, steps and observations: the state of the parser after each block of lines; carry-over invariant for the copy |
| C55 | validate() of sessions, observations and steps (M_Sdf), target visibility as a parameter; limits and disjointness in S_SdfValid | equivalence of the counting overlap check with pairwise disjointness, and of each check with its limit |
| C56 | Observation.duration and the duration text of parse_sdf() in double precision (M_SdfTime over M_Flt, 53-bit rounding to nearest even); what the texts mean in S_SdfTime | error bounds on the roundings; digits of the texts |
| C57 | Observation.start, parse_time() with its regular expression, mjdmpm_to_datetime() and the start text of parse_sdf() in double precision (M_SdfTime); calendar and texts in S_SdfTime; astropy's conversion with a relative error, named time zones a parameter | error bounds on the roundings; day numbers as an order isomorphism |
| C58 | VisibilityDataSet and PolarizationDataSet as objects in a heap of polarizations and uvw arrays (M_Vis); spec: a data set shows a table of rows (S_Vis) | refinement: each call maps tables to tables; failures by cases |
| C59 | the same heap, with any program of sort, rephase and append on one object | frame: objects of the other data set are not written, by induction over the program |
| C60 | VisibilityData as a list of data sets (M_Vis) | invariant over appends; induction over integrations with pairwise separate objects |
| C61 | PolarizationDataSet.append/extend on arrays with one or two axes and np.vstack (M_VisPol) | cases; refutations |
| C62 | the three conversions over exact complex numbers (M_VisPol); tables of products in S_VisPol | generic theorem for any table of products; ring identities |
| C63 | scale_data from the complex gains on (M_VisPol) | induction over baselines, polarizations and integrations |
| C64 | rephase with AIPY as a parameter: gen_uvw, unphs2src, phs2src may fail; assumed inverse and all-or-none above the horizon (S_Vis sound_aipy) | induction over baselines and polarizations |
| C65 | delay and incoherent in double precision (fl); a waterfall is a list of channels; delays below 2^31 integrations | relative-error calculus for the delays, rotation lemmas for the channels |
| C66 | the loop of coherent() over windows, with previous and next data, for any even window size N and any treatment dd of a window; FFT, chirp and inverse FFT as circular convolution with a response h | sample-by-sample characterisation of the output by the stream, then pieces = whole; a response within N/4 makes windows invisible |
| C67 | get_coherent_sample_size in exact arithmetic (the double logarithm may be off by a rounding next to a power of two), the chirp cache as a dictionary | powers of two; invariant of the cache |
| C68 | the writers Idi, Aips and ExtendedIdi as a state machine of calls ending in write(), the tables of the file as columns, and CorrelatedDataIDI on those tables; single precision, conjugation, dates and uvw are parameters | invariant of the loop over data sets (the matrix of an integration being filled), permutation argument for the sort, then a projection of the tables to one date |
| C69 | set_stokes, set_frequency, set_geometry, the station-number mapper and the names of antennas, read back by __init__ | decimal digits of names, arithmetic progressions |
| C70 | the rows of UV_DATA | packed baseline numbers are injective, sortedness of blocks |
| C71 | validation in write, set_stokes, add_data_set and set_geometry | case analysis |
| C72 | CORFile.read on top of the frame buffer model; the file as a list of frames, foreign frames, damaged places and a cut-off end; any number of stands (256 in the code); the time step in double precision | invariant of the read loop over the frames read, the sets in the buffer and those returned; arithmetic of baseline numbers |
| C73 | TBXFile.read likewise, with the zero filling, the limit on damaged places and the frame count from position and durations | the same invariant with filled sets; counting of frames left |
| C74 | DRSpecFile open, read and offset on top of the byte-level frame reader; times as exact rationals, tick arithmetic without rounding or leap seconds | induction over the frames of the recording, then over the calls; convergence of the two offset loops |
| C75 | LWADataFile's loop over the five formats on top of the byte-level frame readers and frame-size searches, with what the COR and TBX readers remember | search lemmas for each turn (first sync word, junk, end of file), then a chain lemma over the five turns |
| C76 | SpecMaster and the spectrometer kernels on flat memory with arbitrary surroundings, any order of the parallel loop, exact complex rationals; the transform and the filter bank weights are parameters | lemma on folds of steps that touch disjoint cells; loop invariants for the sums; frequencies by arithmetic on bins |
| C77 | StokesMaster and the Stokes kernels in the same way, selection of rows by polarization | the same; Cauchy-Schwarz over the rationals for the inequality |
| C78 | FXMaster with the F engines (FIFO delays, fractional rotation, overlap, window or filter bank, clipping) and XEngine2 on flat memory, baseline lists, removal of auto-correlations, gain correction | the lemmas of C76 for the F engine; sums over valid windows; positions of the kept rows against the baseline list; alignment of delayed copies from the linearity of the transform |
| C79 | XMaster: selection, delays by stand number, XEngine2 on a three-dimensional array, rotation and gain per baseline | as C78; look-up in a dictionary built from distinct keys |
| C80 | FXStokes: the F engines of C78, the Stokes X engine writing four planes | disjoint cells of the planes; the products reduced to those of C78; refutations by concrete runs |
| C81 | XStokes in the same way | as C79 and C80 |
| C82 | robust.mean on exact rationals, roots replaced by comparisons of squares | counting: the median and the median deviation lie where most numbers are; correction polynomial bounded from below by square completion |
| C83 | robust.std (its square) on exact rationals | half of the numbers have small weights u, so the denominator has a lower bound; the numerator is bounded by the median deviation |
| C84 | robust.mode: sorting, the scan for the narrowest half and its recursion | invariant of the scan, windows of sorted lists |
| C85 | kurtosis.spectral_power, spectral_fft, and the version along an axis | Cauchy-Schwarz through the sum of squared deviations |
| C86 | robust.checkfit, linefit and polyfit up to the weighted iteration | exact fit: the residuals are zero, both for the three-group start and for least squares; polynomial identities by ring |
| C87 | beamformer.calc_delay on exact rationals; the direction's unit vector and the speed of light are parameters | rewriting to the spec; the mean of displaced points is the displaced mean |
| C88 | phase_and_sum with the C++ engine (memory, blocks of 32 samples, two polarizations), circularize | loop lemmas of the correlator: each cell is written once; Cauchy-Schwarz for the power |
| C89 | mathutils.downsample, regrid (linear), smooth (reflection, np.convolve 'same', slices) | index arithmetic to a weighted mean of the reflected signal; induction for interpolation |
| C90 | compute_planes of gridder.cpp, array accesses checked, the word in front of planeStop a parameter | induction over the visibilities: the planes found so far chain up to the current position |
| C91 | the gridding loops of compute_gridding on a checked array, kernel table a parameter | each cell is added to once per visibility; indices folded modulo the size |
| C92 | compute_gridding with the w kernel, the static normalization, planes in any schedule; Fourier transforms are parameters | sums over a permutation; linearity of the transforms as hypothesis, shown for the 4 by 4 transform |
| C93 | build_gridded_image over a list of data sets, the gridder a parameter | case analysis and induction over the list |
| C94 | ImgWPlus.image, bm_image, _gen_img up to the transform, views and in-place updates modelled, NaN as None | pointwise equations |
| C95 | _minor_cycle on exact numbers, ties by the order of the rows | induction over the turns with the list of components as witness; sums over cyclic shifts |
| C96 | the loop of clean with the table of beams, the shares of a component, _interpolate, the restored image; Gaussian fit, array response, standard deviation and convolution are parameters | induction over the turns: the beams kept are those of their keys; tents add up to one |
| C97 | the loop of lsq with the model in a heap (oldModel is the same array), the simulation, standard deviation and convolution parameters | the state before turn k is given by the k-th model of the specification |
| C98 | the client of lsl/misc/telemetry/__init__.py: its table, lock-free steps, disk and clock; the wrappers over arbitrary functions | invariant over histories: what is logged plus what is held is what was told |
| C99 | processes that write a log in two moments, the sender that reads, posts and removes, in any interleaving | invariant over interleavings: a name removed was read whole and sent, or half written |
| C100 | one file of the cache as the states it goes through; transfers as blocks that end, break off or throw; crash = any prefix | case analysis of the order of sources; the last state of a run |
| C101 | lsl/common/header.py: the calls as entries, entries as lines, parse_header line by line over any json library that brings its values back | where the parser stands (path, indent) as an invariant; induction over the size of the tree |
| C102 | the same writer | each entry fits in the computed width, hence one line of that width |
| C103 | lsl/common/mcs.py: parse_c_struct line by line (regular expression, dimension expressions, type table), ctypes layout and attribute access | the text of a declaration matches in one way; offsets computed by both sides agree along the fields; each element decodes to the encoded value |
| C104 | lsl/common/metabundle.py: read_ses_file, read_obs_file on the bytes of the file | C103 for each structure; induction over the steps; for a cut file, by where the cut is |
| C105 | read_cs_file as a loop with the file as its state | induction over the commands; the loop consumes bytes until none are left |
| C106 | the member chosen from the list of members; lru_cache as one remembered tarball | induction over the members |
| C107 | lsl/common/sdm.py: parse_sdm, update_antennas over a heap of antenna objects | C103 for each structure; induction over the antennas |
| C108 | lsl/common/stations.py: _parse_ssmif_text as a line scanner, a table of keywords and an environment of local variables; parse_ssmif as the construction of the objects; floats are kept as their texts | the invariant "each local variable holds what the entries so far say" over the file; then each loop over parts as a map over antennas |
| C109 | the same model with the attenuations in half decibels | the invariant of C108 and the minimum as a fold |
| C110 | the same model | the invariant of C108 up to the damaged line, then the line itself |
| C111, C112 | lsl/correlator/uvutils.py over the real numbers of the standard library (M_Uvw); the axes in S_Uvw by their geometry; the end of a track in binary64 | trigonometric identities; success as an equivalence; a point of the circle is reached at some angle |
| C113, C114, C115, C116 | lsl/writer/uvfits.py with what it shares with FITS IDI, CorrelatedDataUV of lsl/imaging/utils.py (M_Uvfits); single precision of the group parameters is a parameter of the model; integrations, calls and data sets as in S_Idi | simulation of the loop of the FITS IDI writer; round trip; stable sort; case witnesses |
| C117, C118, C119 | lsl/common/idf.py: the objects, validate(), render(), parse_idf(), generate_sdfs() (M_Idf), on top of the lines of M_Sdf; visibility, separation and 1/cos are parameters | round trip by induction on the scans with the values that stay in obs_temp; iff with a separate description of good runs (S_IdfValid); the generated sessions are valid by C55's description; case witnesses |
| C120, C121, C122 | lsl/logger.py and the parts of the standard logging and fnmatch modules it uses (M_Log): logger with its handlers, filters, level, the capture of warnings; sinks are streams, files and user handlers; the history of calls is a list | invariant over histories tying the logger's state to what the history says (S_Log); one-step delivery lemma; induction over the calls; matching by induction on the pattern against an inductive description; case witnesses |
| C123, C124 | lsl/misc/rfutils.py over the real numbers (M_Rf); a quantity is its number and the size of its unit | algebra with exp and ln; the meaning of gains, decibels and areas is separate (S_Rf) |
| C125 | lsl/common/color.py: _label, the expressions of colorfy as search functions, the passes, str.replace, uncolorfy (M_Color); the terminal and the meaning of tags separate (S_Color) | labels by induction on the text with tags; one pass as a walk over parts in which no match begins; replacing the resets is another base style for the terminal; case witnesses |
| C126 | lsl/catalog.py: Catalog.lookup, __getitem__, __iter__, __len__, the LWA and PSRCAT readers (M_Cat) | invariant of the two dictionaries under adding an entry, over all lines |
| C127 | LWA_Catalog.parse_file with astro.hms, astro.dms and equ_posn checks (M_Cat); file format and "last source with" separate (S_Cat) | columns computed line by line; reverse induction over the sources |
| C128 | PSR_Catalog.parse_file as a state machine with its local variables (M_Cat); records as sets of keyword lines (S_Cat) | the state in a record is a function of which values have been seen; induction over records |
| C129 | the same readers on malformed lines | case analysis; witnesses for what is not reported |
| C130 | CatalogFactory.get_catalog with an arbitrary outcome of every construction (M_Cat) | invariant over the sequence of requests |
| C131 | scripts/splitDRX.py: split_file, the number of captures and of files, the loop over files (M_Split) | induction over frames, captures and files; bytes a..b as specification (S_Split) |
| C132 | splitDRX: setting back by a frame and the search for a first frame (M_Split) | induction over the frames passed over |
| C133 | lsl/transform.py: the setters, getters, constructor and comparisons of Time, on exact numbers (M_Tobj) | field arithmetic, floor and rounding bounds |
| C134 | lsl/statistics/stattests.py up to the normal distribution (M_Runs); runs as an inductive relation (S_Split) | induction over the values |
| C135 | lsl/statistics/kurtosis.py: spectral_power and spectral_fft on exact numbers, with the three ways to sum a two-dimensional array (M_Kurt); the estimator separate (S_Kurt) | Cauchy-Schwarz with its case of equality by induction |
| C136 | kurtosis.py: var, skew, and get_limits with arbitrary outcomes of the distribution functions and the error setting as state (M_Kurt) | case analysis over the outcomes |
| C137 | lsl/misc/scattering.py: the CLEAN loop of unscatter with an arbitrary broadening function (M_Scat); broadened components separate (S_Scat) | loop invariant: profile = residual + sum of components broadened |
| C138 | unscatter: the range of times, the comparison and the errors (M_Scat) | induction over the times tried |
| C139 | lsl/imaging/analysis.py: find_point_sources from the convolved image on: edges, candidates, de-duplication with index wrap-around and IndexError, statistics, trimming (M_Find); peaks, sharpness and roundness separate (S_Find) | induction over the offsets of the detection area |
| C140 | find_point_sources: the center with the orientation of meshgrid (M_Find); center separate (S_Find) | sums over the box |
| C141 | lsl/common/sdm.py: update_antennas with the antennas as objects with identity and negative indices (M_Sdm); table lookup separate (S_Sdm) | induction over the antennas |
| C142 | lsl/common/mcs.py: flat_to_multi (M_Sdm); row-major order separate (S_Sdm) | induction over the dimensions from the last |
| C143 | sdm.py: StationSettings.binary_read, the intervals, from bytes (M_Sdm); the bytes of given intervals separate (S_Sdm) | case analysis, two's complement |
| C144 | sdm.py: SubSystemStatus, its summary and text (M_Sdm) | case analysis |
| C145 | lsl/common/mcs.py: MIBEntry._parse_value on the bytes ctypes gives for a char array, those before the first zero (M_Mib); stored bytes separate (S_Mib) | induction over the bytes |
| C146 | mcs.py: MIBEntry.from_entry, MIB.parse_init_file, from_file, __getitem__, keys with dictionaries as association lists; the UTF-8 decoding is a parameter (M_Mib) | induction over lines and records |
| C147 | lsl/imaging/analysis.py: the number of tiles, the slices and the centers of estimate_background along one axis (M_Back) | integer division |
| C148 | estimate_background's value of a tile, in rational numbers with variances for deviations, None for nan and the median as a parameter (M_Back) | sums over lists; a Chebyshev bound for the clipping |
| C149 | lsl/writer/virtual.py: add_data_set over VisibilityData.append, data sets as time, baselines and number of channels (M_Virt) | invariant of the writer over all histories of additions |
| C150 | virtual.py: get_data_set with include_auto, over VisibilityData.append and sort; objects are places in the writer (M_Virt) | induction over the sets; sorting lemmas |
| C151 | lsl/imaging/analysis.py: the replacement of nan and the 3 by 3 median filter of estimate_background; scipy.signal.medfilt as documented, with zeros outside (M_Medf) | counting in sorted lists; two majorities meet |
| C152 | lsl/correlator/filterbank.py: fft and its sub-types, for real signals, with the weights and the factors of the transform as parameters (M_Bank) | invariant of the loop over the taps |
| C36 | configuration container (M_Config) driven by arbitrary programs with set, set_temp and exceptions, saves, and other processes writing the file | invariant over histories |
| C37 | the text of the file and its reader (M_Config over M_Str); float repr/parse are parameters | text round trip |
| C38, C39 | baseline lists and packing | combinatorics, arithmetic |
| C40, C41, C42, C51 | astro helpers over exact rationals, binary64 witnesses | arithmetic; weekday by day-to-day specification |
| C50 | `date_to_zonedate`/`zonedate_to_date` through the printed time | calendar injectivity |
| C52 | `leap_secs` over any history of leap seconds | arithmetic |
| C43 | argument parsers over strings (M_Str, M_Parser), against grammars in S_Parser | induction; iff with the grammar |
| C44 | the registry and the objects over any history of open, failed open, close, close_all (M_Reg) | invariant |

## Findings: where the code does not have the property

Each item is a theorem whose name ends in `_refuted` (an explicit witness computed by the kernel).

* C04: a frame set that contains duplicates up to the expected count is declared complete; COR sets can be over-full.
* C05: `flush` emits in insertion order, not time order, and can re-emit times already returned.
* C08: after `reset` the DRX/DRX8 buffers accept frames from before 1980 again.
* C09: the reorder key of two-element identifiers is not the identifier order.
* C11: a read that spans more than two parts loses data, `whence=2` seeks are wrong, negative seeks select the last part.
* C16, C17: the simulated DRX tuning word, quantisation of NaN-free extremes and integer payloads.
* C19: a COR reader whose cache assumes fewer channels (left over from another file) returns truncated
  frames; a short file of small frames gives end-of-file at once; data that imitates the sync word is taken for a boundary.
* C20: a file shorter than one frame of the assumed TBX mode gives end-of-file although it holds
  frames; first channels of 32768 and more come back negative; `read_frame_ci8` raises `NameError` instead of `SyncError`.
* C23: of the 256 format bytes only the thirteen supported ones and those with four or more
  products keep the spectrometer decoder inside its buffer (exact characterisation proved); mixed
  four-product formats show XX under the name I; channels times fills wraps at 2^32. Error branches of the frame arithmetic
  (drspec.py) use an undefined name and raise NameError (noted from the source, not modelled).
* C45: beam 0 and beams above 4 in `get_frames_per_obs`.
* C46: the COR description functions fail on short files (division by zero); one corrupted TBX
  frame hides all later frames from `get_frames_per_obs`, whose loop seeks by 0.
* C21: read_frame_i8 on complex data passes its int8 array to code that reads it as float32, four
  times as many bytes as the array holds (vdif.cpp 318-323). Noted from the source; the model
  covers read_frame_i8 for real data only.
* C22: the VDIF writer's length field counts whole 8-byte units, so a frame of an odd number of
  32-bit words is announced 4 bytes short; a partial last word is dropped silently or raises
  IndexError; out-of-range samples wrap round; the version field is written as 2.
* C47: the VDIF buffer's key seconds*1000000+frame mixes up seconds when there are 10^6 frames or more in one.
* C49: get_frames_per_second returns 1 for a file that starts with the last frame of a second, a
  too small rate for a file without a second boundary, and raises KeyError when a thread is late.
* C24: on a day with a leap second a time tag comes back up to a second's worth of ticks wrong: ERFA
  stretches the day, and `dp_timetag` subtracts two such times.
* C25: a negative whole number of fractional seconds is stored with a fraction of exactly 1; the
  first second of every UTC day has a pulsar MJD of the day before with second 86400.
* C26: from 2131 on binary64 loses a millisecond in `mjdmpm_to_datetime`.
* C28: in binary64, delay word 201 comes back as 200 (2634 of 65536 words fail); delays of 4096 samples and
  more wrap round, negative gains come back positive.
* C29: `flat_to_multi` raises ValueError for shapes with a zero inner dimension and accepts negative dimensions.
* C48: the VDIF reader's times are half a second late in the half-year after a leap second; the
  writer can emit a frame number equal to the frame rate, and epoch 64 (year 2032) does not fit.
* C38: looking up an autocorrelation (i, i) in a baseline list returns the first baseline that contains antenna i.
* C40: `deg_to_hms` drops the sign and raises ValueError from one turn on; `add_hms` never changes
  the hours (it assigns a `degrees` attribute); in binary64 4.35 degrees becomes 4 d 21 m 59.99... s.
* C42: at exactly midnight every other day has the weekday of the day before (banker's rounding).
* C50: times with a fraction of a second of 0.9995 or more are converted one second late.
* C52: during a day that ends in a leap second the result moves in steps of 0.1 s towards the new value.
* C30: a missing set is not filled when fewer sets than the buffer holds follow it (the read raises
  RuntimeError); gaps are only noticed through tuning 1, polarisation X; sets left in the buffer at
  the end of the file are taken in order of arrival; a file that ends inside a set while a gap is due
  raises IndexError; two beams are written to the same rows.
* C31: opening looks at the frame after 1, 2, 4, 8 and 16 MiB without checking that the file reaches
  past it, so a DRX file of exactly 255 frames (or 509, 1017, ...) raises EOFError, as does any file
  of fewer than 32 frames; a stray frame header before the data makes the reader skip the first frame.
* C34: removing the lock file while the lock is held lets a second process in; two threads sharing one
  FileLock object both get True; after acquiring twice the first release gives the lock up; the body
  of "with FileLock(...)" runs without the lock after the timeout; where the lock file cannot be
  opened acquire() raises UnboundLocalError instead of the documented warning; if the lock file is
  removed between open and stat, FileNotFoundError leaves acquire().  MemoryLock.locked() is False
  after an inner release or another thread's timeout although the lock is held, which trips the
  assertion in MemoryCache; acquire(blocking=False) raises ValueError.
* C32: the limit is enforced before the data is written, so the cache is over its limit after any
  write; opening the oldest file with 'a' deletes it and what is appended is lost; with equal times the
  file just opened with 'w' may be deleted; a directory in the cache (from open('sub/file', 'w')) that
  becomes the oldest entry makes open() loop for ever; a failed open() keeps the lock;
  MemoryCache deletes the file just opened whenever other files were flushed, since a file's time is
  0 until flush(); MemoryCache.getmtime raises TypeError.
* C33: append mode overwrites from the start; iteration yields one line; reading a missing file
  creates it; files opened for reading can be written; opening an open file closes the handle in use;
  truncate() does not extend a file and works on closed files; seek() returns None.
* C43: `csv_hostname_list` accepts IPv4 bytes above 255 and drops the zero padding of name ranges (`n01~02` gives `n1`, `n2`); `csv_hours_list('')` and `csv_degrees_list('')` raise IndexError instead of rejecting.
* C36: `set()` inside a `set_temp()` block of the same parameter leaves a pending change that no value shows; a KeyError raised in a
  `set_temp()` block comes out as ValueError; the second save of a session is always abandoned because the load time is not
  updated; with a new version the changes reported as abandoned are written over another process' changes; `view().set()` does not
  fall back to the full name as `view().get()` does.
* C37: None for a parameter with a default, strings that look like numbers, booleans or nothing, and strings with spaces at the ends or
  newlines do not come back; a line without '=' makes the import fail; a setting without section makes every save fail.

* C35: ProgressBarPlus and DownloadBar are always nine characters wider than `span`; amounts beyond `max` make ProgressBar wider than `span`; the bar can look complete before `max` (99 of 100 in 20 places); `max = 0` raises ZeroDivisionError.
* C44: a second `close()` (also: leaving a `with` block whose body closed the file) raises KeyError and leaves the file name in the registry for good; an object whose constructor fails stays registered with its file open.
* C53: pingpong in three places runs out of its text and grows without bound; boomerang in no place and flow in one raise IndexError; `stop()` can raise IndexError when it draws while the indicator thread has just moved the mark, and then never ends the thread.
* C54: what an observation leaves unset (-1, no beam-dipole mode, no high dynamic range) comes back as the last value set by an earlier observation of the session, since parse_sdf() keeps one temporary dictionary: high dynamic range, gain, beam-dipole mode, FEE power and ASP filter and attenuators all leak.
* C54: a step without delays and gains after one with them comes back with them; a uniform FEE setting with only one polarization set is not written; the gain of a TBS observation is written and not read; a right ascension (or first step coordinate) that rounds up to 24 h (360 deg) is written and cannot be read; remarks are cut at 4090 characters; a missing text comes back as 'None provided'.
* C54: a line that does not begin like a keyword (a comment) is an AttributeError; SESSION_LOG_SCH 0 sets the flag; a declination out of range is a NameError from the error message (`dec`).
* C55: 1024 steps (MAX_STP_N) are refused since the count starts at 1; a stepped observation without steps is a ZeroDivisionError; a TBT observation with a negative number of samples is valid and can overlap with others; the metatags {Stokes=CRCI}, {Stokes=XXCRCIYY} and {Stokes=I} are taken by the setter and refused by validate().
* Other defects seen in sdf.py (not modelled): `Project.autofilled` refers to an undefined `session`; the duration setter with a Quantity reads `seconds` before it is set; `set_beamdipole_mode` with a stand that is not there ends in UnboundLocalError; `_TypedParentList.extend` drops values of the wrong type silently.
* C56: a duration given as an astropy quantity is a NameError (`seconds` is read before it is set).
* C57: a start within the last half millisecond of a second is a ValueError, as text and as datetime; "+1:30" is taken for an offset of thirteen hours, "+5:30" and "+05" are ValueErrors; parse_sdf() moves observations on days with a leap second (by half a second at noon) since it reads the day fraction with the length of that day.
* C58: sort() with an order of the wrong length raises ValueError after the baselines were changed; two data sets holding the same polarization object break each other when sorted; from antenna 4096 on the order is not that of the baselines; append() does not look at the sizes of weights and masks.
* C60: get_uv_range() of a VisibilityData fails as soon as two integrations keep different numbers of baselines; get_antenna_subset(indicies=False) is taken as indicies=True; extend() skips the checks of append(), and copy() of the result then fails; after a first integration without baselines any size is accepted.
* C61: append() compares the new shape with the stored one, so no visibility can be added to a new polarization, nor to one with two or more; after the ValueError the data is there and its weights are not.
* C62: RR+LL = 2I while XX+YY = I; converting back averages weights and joins masks of the two polarizations of a pair.
* C63: for a VisibilityData the baselines of the first integration are used for all.
* C64: rephase() of a data set without polarizations changes the phase center but not the uvw coordinates; without ignore_errors the integrations before a failing one stay moved.
* C65: with a negative dispersion measure boundary='fill' fills nothing, the samples wrap around; a single frequency is a TypeError (delay() returns a number).
* C66: when more than half a window is left over at the end, the samples beyond the half stay zero although next data is given; without next data the last block is computed from zeros in place of the data that is missing; previous or next data of one sample is broadcast instead of refused.
* C67: for a delay of at most half a sample the window is one sample and every result is zero; smaller delays give a window of zero samples (ZeroDivisionError), as does a dispersion measure of zero; a negative one is a ValueError.
* C68: the sort order found for an integration is used for all following ones with as many baselines; if they list their baselines in another order, visibilities, coordinates and weights are stored with the wrong baselines. A body gets the coordinates of the first body of its name. An integration without its last polarization is written without visibilities, and the visibilities of the following integrations move up into its rows; without its first polarization it is stored with the first polarization of the integration before it (a NameError for the first integration).
* C69: polarizations whose codes do not follow each other (XX and XY) are read as others (XX and YY); descending frequencies are read as ascending; a single channel is an IndexError; stands from 1000 on lose their thousands when they are read (1 and 1001 become 1 and 1), even with ExtendedIdi.
* C71: set_stokes with an unknown name keeps the names before it.
* C72: read() without a duration raises UnboundLocalError (framesPerObs is used before it is assigned). The expected time step int(tint*fS) is one tick too small for some integration times (0.29 s among others), so complete recordings with them raise RuntimeError at the second integration.
* C73: after offset() the frames left are counted from the new position and then once more reduced by the position, so read() returns too little or, in the second half of a file, raises ValueError. The gap filling knows only the step 8192; a gap in data with step 7840 is a RuntimeError. With frames missing, read() without a duration loads less than the entire file; with less than one spectrum in the file it returns empty data for ever and never raises EOFError.
* C74: a damaged frame header makes every later read() return (0, None, zeros) for ever: the frame reader rewinds to the start of the frame and nothing steps over it. After a jump of more than 1.001 integration times every later read() raises RuntimeError and uses up one frame, since the expected time is not brought up to date. A file of one frame cannot be opened: _ready_file steps back by the size of the next frame (EOFError). A cut-off last frame gives one empty result before EOFError. Backward jumps in time pass unnoticed.
* C75: the test for DRX and DRX8 comes first and gives up on the whole file at end of file, so a TBX, COR or DRX8 file shorter than 16448 bytes (two DRX8 frames) is not recognised (RuntimeError). A DRX8 file with the sync word 4128 bytes into its first frame is opened as DRX. A TBX recording with up to 2499 damaged bytes before its first frame raises OSError (negative seek: read_frame already rewinds on a bad sync word there), and a DR spectrometer recording with anything before its first frame is never recognised, although DRSpecFile opens it (C74).
* C76: the rotation of the spectra of complex data copies sizeof(double)*nChan/2 bytes; for an odd number of channels that is half an element more, read from the row of the next stand (being written by another thread) and, for the last stand, from four bytes beyond the result. The half element is overwritten afterwards, so the values are right.
* C77: the X and Y signals are paired by their position among the X and the Y antennas, not by stand: with the Y antennas in another order, signals of different stands are combined without any error.
* C78: an overlap that does not divide the length of the transform makes the last windows read beyond the row of the antenna (the next row, or memory behind the array); an overlap larger than the length divides by zero in C and kills the process.
* C78: with auto-correlations left out, the rows to drop are found by stand numbers and the baseline list by positions. If the Y antennas come in another order of stands than the X antennas, cross-polarization output has another number of rows than baselines and is mislabelled.
* C78: the number of windows is computed separately for the two polarizations from the largest delay of each. If the two differ, cross-polarization correlation fails with RuntimeError.
* C79: the delays are kept in a dictionary by stand number. Two antennas of one polarization and the same stand number both get the delay of the last.
* C80, C81: for U and V the engine combines X1 times the conjugate of Y2 with its own complex conjugate, not with Y1 times the conjugate of X2. So U and V of baselines between different stands are always real and in general wrong; for auto-correlations they are right.
* C80: the sums of all products are divided by the number of windows in which X of the first and Y of the second stand are not clipped, although XX and YY are summed over other windows: with clipping, I and Q are wrong, and may be a division by zero although there are data.
* C80: gain correction runs over range(output.shape[0]), the four Stokes parameters, as if these were baselines: only the first four baselines are corrected, and with fewer than four it is an IndexError.
* C81: all products of a baseline are rotated by the delay of the X antenna of the first and the Y antenna of the second stand. If the delays of X and Y differ, I of an auto-correlation is not even real.
* C82, C83: if half of the numbers are equal, the median deviation is 0 and the code falls back on the mean deviation, which outliers carry away: of five zeros and two numbers of 10^6 the robust mean is 285714 and the deviation above 500000. Numbers closer than 10^-20 count as equal, so data in small units are treated so too.
* C83: three numbers may raise ValueError (0, 1, 1000).
* C84: the scan stops one window early for an even number of numbers: the mode of 0, 10, 20, 21 is 5. Of three numbers the upper pair is never chosen, since `if i1 < i2 ... elif i2 > i1` tests the same twice. Four or more equal numbers, or lists in which a half becomes constant, raise UnboundLocalError.
* C85: with axis=1, M is len(x), the number of rows, and not the number of elements in a row.
* C86: polyfit of order 0 takes off the mean of y and never adds it again. linefit of points closer than about 10^-10 in x returns (0, 0). In polyfit with 10000 points or more `lsqfit = 0` is written where `lsqFit` is read, an UnboundLocalError when too few points are good (read, not modelled).
* C87: calc_delay takes the middle over stands numbered up to 256 only; an array of stands with higher numbers gets NaN for every delay, with a numpy warning at most.
* C88: with no good antenna (combined_status 33) phase_and_sum returns a Y beam of zeros instead of failing. circularize with its default iau=True gives a Stokes V of R less L whose sign is opposite to the Stokes V of StokesMaster for the same X and Y.
* C89: smooth() reflects the start leaving out x[1] and the end repeating the last point, so a straight line is bent at both ends (0, 1, 2, ... starts with -1/3); with as many numbers as the window is long it returns one number less.
* C90: when all visibilities fall in one w plane compute_planes reads planeStop[-1]; if that word of the heap is not below the number of visibilities the plane is not closed and no visibility is gridded at all. More than 1024 planes are written past the end of the arrays; with no visibilities w[0] is read.
* C91: visibilities beyond half the plane are folded back into it silently, and those beyond about twice its size are written outside the array.
* C92: the normalization is a static variable computed at the first call, so that a later call with a plane of n instead of N cells a side is off by (N/n)^2.
* C93: of several data sets (or with an image to add to) only the last is in the image. Masks are ignored: flagged visibilities are gridded.
* C94: uniform and Briggs weighting change the stored plane, so a second call divides by the weights again. bm_image() with uniform weighting leaves NaN wherever the weight is zero.
* C96: if the brightest cell is closer than half a beam to the first row or column, clean() ends in a ValueError (the cutout's negative start counts from the end and it is empty). A component exactly in the last row or column gives IndexError. A fitted place between -1 and 0 gives the first two rows the shares 1+x and x, which do not add up to one. If nothing is removed (negative image, max_iter 0) the restored image is NaN everywhere.
* C97: oldModel is the model array itself, so on a worse turn "going back" keeps the worse model and combines it with the residuals of the turn before (zero residuals on the first turn). With max_iter 0, or nothing to simulate on the first turn, lsq() ends in a NameError.
* C98: ignore() calls set_temp(...), a context manager that is never entered, so telemetry stays on. Two logs written within one second by one process have the same name and the first is lost. disable() drops counts not yet written. A wrapped method called with self as keyword raises IndexError after having run.
* C99: the sender also removes logs it could not parse, for example one another process is just writing, without having sent them. If the reply is lost the logs are sent again.
* C100: the length announced is never compared with what arrived: a transfer that ends early is kept as the file and returned for fourteen days. The cache file is written in place: a crash, or an exception other than IOError (no Content-Length: TypeError; bad gzip data), leaves an empty or half file that later fetches accept. When only the server's copy is newer the refresh installs the local copy, however old. A refresh that fails has already removed the old copy.
* C101: a section that comes after a key of the same level is read as a key with the empty text, and its contents land in the level above (timestamp() or lsl_version() first and a section then is enough). An empty section takes the keys that follow it. The comment character is removed from inside values. line() after a value that is not a text makes parse_header raise TypeError. A colon in a name splits it. In a fixed width the blanks at the line breaks are lost (the documentation of parse_header says so): C101_wrapped gives what is read.
* C103: a declaration whose comment contains a brace is skipped like the frame of the structure, and all fields after it move.
* C104: the recording and update intervals of DR5 are in neither dictionary. A session specification that ends early is read as zeros without an error.
* C105: data are cut at the first NUL; a command with more than 256 bytes of data silently ends the script (the IOError raised for it is caught by the loop itself); a script cut inside a command or its data returns the damaged command; a command with the time 0 ends the script.
* C106: without a .ses or .cs member the last member of the tarball, whatever it is, is read as one, and an empty tarball gives NameError; hence is_valid() accepts a tarball with one empty file. A tarball replaced on disk is not reopened if it was the last one opened.
* C107: the report and update intervals of DR5 stay -1. str() of a status always raises. A file of any length is accepted. update_antennas() changes the given antennas although it says it returns new ones; stand 0 gets the status of stand 256.
* C109: the attenuations of stands 1, 2, ... are zipped with cables 1, 2, ...; cable n belongs to antenna n, not to stand n, so settings of single stands go to the wrong antennas and the cables beyond the number of stands get none. ASP_AT3[n] stores the value last given for ASP_AT1 (or raises NameError when there was none).
* C110: index 0 changes the last element and a missing index the last but one; SNAP_ANT 0 gives the digitizer to the last antenna; the version line may be missing. A board without ARB_ID is refused (ValueError from int('UNK', 10)) although it has a default name; a blank or a comment after STATION_ID makes the station 'New LWA Station'; a comment that does not start in the first column is refused; ARB_PORT overwrites the rack.
* C112: compute_uv_track() refuses astro.dms declinations, which compute_uvw() takes. In double precision the first and last points of either half of the track can be NaN: u ends at the rounded root r of x^2 + y^2, and x^2 + y^2 - r^2 may be negative (x = y = 1).
* C113: weights given to add_data_set() are lost in a UVFITS file (all come back as one). Two integrations whose dates agree in single precision are read as one with all baselines twice.
* C114: stands from 1000 on lose their thousands in the names of the antennas of a UVFITS file, so that 1 and 1001 are read as 1 and 1. A second frequency setup is accepted by set_frequency() but refused by write().
* C115: the groups of a UVFITS file are sorted by the two stands, not by the stored baseline number: with stands on both sides of 256 the numbers of one integration are not ascending although the header says SORT = TB.
* C117: parse_idf() does not empty obs_temp between scans: a scan without alternate phase centers after one that has them makes the file unreadable (RuntimeError); a scan that leaves out proper motion, gain or analog filter comes back with those of an earlier scan, an alternate phase center without proper motion with that of the one before. A scan without remarks comes back with "None provided".
* C118: validate() of a scan with alternate phase centers and both tunings 0 raises ZeroDivisionError instead of answering False.
* C119: generate_sdfs() raises IndexError for every project to which no project office has added entries (the default), for a run without scans and for alternate phase centers of a scan the project office has no entry for; TypeError for a tracked scan without remarks.
* C120: if the new file cannot be opened, enable_file_logging() has already closed the log that was there, so logging to files stops without notice; captured warnings ignore set_log_level().
* C121: every message has the name of the one logger ("lsl_logger"), warnings "py.warnings", so the documented module patterns ("lsl.imaging.*") match nothing and silence the whole library.
* C122: the handler made at import stays, so enable_console_logging() makes every message on stderr appear twice and disable_console_logging() does not disable it.
* C123 (by reading only): `__all__` of rfutils lists dBd_to_dBi twice and leaves out dBi_to_dBd, so a star import does not bring it.
* C125: text that ends with "{{" makes colorfy() raise IndexError; a newline within a tag, a tag without text, or an unmatched "}}" before it leave the tag unconverted with the labels of the first step ("{{0{{%red") in the result; tags in each other more than ten deep are not converted right.  By reading only: backslashes in the text are taken as escapes of a re.sub template; from a hundred levels on _label() does not end.
* C129: an LWA catalog line cut off before the sign of the declination raises IndexError, and an angle out of range ValueError, both without the file and line number the RuntimeError for other errors has.  In a PSRCAT file a right ascension that is not in two or three parts falls through to the conversion of the previous pulsar's values, and as the first one stops the reading with UnboundLocalError; a field that is not a number aborts the whole catalog with ValueError; a last record without "@-" is lost.  By reading only: the debug messages of PSR_Catalog pass an argument to a message without a place for it, which logging reports as an error on stderr when debug messages are shown.
* C131: with neither -r nor -d, the default, splitDRX never writes anything: the name of the file formats the seconds to keep, a float, with :04d, which is a ValueError.  With -r a file too short for one piece gives ValueError from math.log10(0), and a duration shorter than a capture ZeroDivisionError.
* C132: whenever the position reached is not at a frame of tuning 1 and polarization 0, the search reads past the first such frame and the split begins with the frame after it, so the first capture lacks its first frame and every later one is misaligned.
* C133: setting utc_dp adds the samples within the second as seconds, so a count that is not a multiple of 196000000 does not come back (196000001 samples become 2 s).  In the last half millisecond of a day utc_mcs is (day, 86400000).  utc_py_date raises ValueError for a value of a wrong type where the other setters raise TypeError.
* C134: for no values one run is counted.  The docstring calls runs only the stretches of two or more values; the code counts those of one as well.  The correction by one half can pass zero: a number of runs that is exactly the mean is given a statistic of minus one half over sigma (C134_statistic_example).
* C135: spectral_power takes the number of rows for the number of values whatever the axis, so along axis=1 of an array that is not square, and over the whole of any array with several columns, the value is wrong, and can be negative; a single value raises ZeroDivisionError.
* C136: get_limits sets all numpy errors to raise and restores the setting only at the end: after any exception, as ZeroDivisionError for M = 1, every floating-point warning of the rest of the program is an exception.
* C138: the check for "No good solution found" tests the loop variable instead of the best time, so the RuntimeError is never raised: an empty range gives UnboundLocalError and figures of merit that are all nan KeyError.
* C139: when the threshold is not above the least value of the convolved image, pixels of the edge are candidates and pixels beyond it are asked for: IndexError, as for any flat image at or above the threshold.
* C140: meshgrid(row, row) varies rx along the second axis, but its weighted sum is added to the position along the first: the offsets of the center along the two axes are exchanged.
* C141: update_antennas sets the status of the given antennas and returns them, instead of new ones; after an IndexError some of them are changed; an antenna of stand 0 gets the status of the last stand.
* C143: binary_read never reads the report and update intervals of DR5, which are in the file; they stay -1.
* C144: str() of a SubSystemStatus always fails: "%i" does not take a SummaryCode (an enum.Enum, TypeError), and binary_read makes the summary a plain number, which has no description (AttributeError).
* C145: the val field is a char array, which ctypes cuts off at the first zero byte; an integer or float with a zero byte (256 as i2u, 5 as i4u, 1.0 as f4) then has too few bytes, and the struct.error is turned into the value 0.
* C146: two indices with one name in the initialization file: keys(name=True) gives the name twice, but it leads to the second only.
* C147: the tiles are half a window wide and do not overlap, although the documentation says window by window and half overlapped; up to half a window of pixels at the end of each axis is in no tile.
* C148: a tile whose pixels are all alike has standard deviation zero, nothing passes the clipping, and the estimate is nan; it is replaced by the median of the other tiles, so a blank region is not given its own level.
* C149: add_data_set makes a data set with one polarization, and a second one of the same time is refused with ValueError, so the virtual writer cannot hold two polarizations, unlike the file writers with the same interface.
* C150: get_data_set(0) gives the last set, and sort=True (the default) sorts the writer's own data sets.
* C151: medfilt takes what is outside of the grid as zero; at a corner these are five of nine values, so the background at the four corner tiles is zero whatever the image is.
* C152: a signal of a single sample is not refused: numpy repeats it, and the result is that of a constant signal.

## Trusted base

Coq's kernel; the reading of the Python/C++ source recorded in the comments of the `M_*.v` files.
Axioms used by each theorem are printed by `Print Assumptions` beneath it.
Double precision is modelled three ways: exact rationals with an explicit error term, bit-exact binary64 of the
standard library (Coq.Floats.SpecFloat), and 53-bit rounding to nearest even without overflow or underflow (M_Flt, which
has the properties of S_Bar's `doubles`, theorem C35_doubles_flt_example).
Visibilities are exact complex rationals; AIPY's phasing functions are parameters whose assumed laws are the record
`sound_aipy` of S_Vis, an explicit hypothesis of the theorems that need it. numpy broadcasting is modelled only where a
model says so (M_VisPol: vstack of arrays with one or two axes).
C111, C112, C123 and C124 use the real numbers of the standard library and with them its axioms ClassicalDedekindReals.sig_not_dec,
ClassicalDedekindReals.sig_forall_dec, FunctionalExtensionality.functional_extensionality_dep and Classical_Prop.classic;
all other theorems are closed under the global context.

## Not modelled

The Fourier transform itself and floating-point rounding in the spectrometer and correlator kernels, astropy/ephem computations, the bytes of FITS files (a file is its tables) and measurement-set output,
plotting, network access, the operating system below file contents and advisory locks.
Of lsl/statistics/robust.py: axis, dtype and masked arrays, biweight_mean, the weighted iterations of linefit and polyfit, the bisector, polyfit of 10000 points or more.
Of lsl/misc/beamformer.py: phase_beam_shape and what it calls, the fallback to np.einsum when the dimensions do not match, rounding of the beam to single precision. Of lsl/misc/mathutils.py: everything but downsample, regrid with linear interpolation and smooth.
Of lsl/imaging/gridder.cpp: kaiser_bessel_1d_kernel_filler and compute_kernel_correction (the kernel's values), FFTW itself, single precision rounding, argument parsing. Of lsl/imaging/utils.py in the gridding: append_hermitian, the sorting by w, the world coordinate system, the shifts and transforms after the weighting.
Of lsl/imaging/deconv.py: clean_sources, _fit_gaussian, the making of the zenith beam and of the simulated images (sim/vis.py), the convolution, plots and logging, NaN in the image, double precision.
Of lsl/misc/telemetry/__init__.py: payload fields other than the calls, threads that switch `active` outside the lock, the JSON text, floating point sums, races of getmtime and glob, logs overwritten between reading and removal. Of lsl/common/data_access.py: the _meta files, the content of headers (only their outcomes), symbolic links between cache and installation, two processes fetching the same file at once.
Of lsl/common/header.py: comments of several characters and TextHeader, wrapping in a fixed width, tabs, the JSON text itself, logging.
Of lsl/common/mcs.py: bit fields and nested structures, dimension expressions beyond sums and products, packed layouts narrower than the types. Of lsl/common/metabundle.py: get_sdm, get_station, get_session_metadata, get_asp_configuration and its summary, the ADP and DP variants (_metabundle_adp.py, _metabundle_dp.py), tar compression and extraction, subdirectories. Of lsl/common/sdm.py: the conversion of times to datetime.
Of lsl/common/stations.py in the SSMIF reader: the binary format (_parse_ssmif_binary), the float values of numbers, the unit conversions of velocity factor and dispersive delay, FORMAT_VERSION-dependent branches of other releases, the interface modules.
Of lsl/correlator/uvutils.py: rounding (but for the ends of a track), frequencies as lists of lists, infinite or NaN positions.
Of lsl/writer/uvfits.py and CorrelatedDataUV: the bytes of a FITS file, how astropy scales group parameters (a parameter of the model), antenna positions and the header keywords that do not enter what is read back.
Of lsl/common/idf.py: projects with several runs, get_idf() of a tarball, the texts of the project office and the UCF user name, the ephemeris (visibility and separation are parameters), the text forms of times and tunings between keywords and objects (M_SdfTime, C27).
Of lsl/logger.py: the texts of the formatter, ThreadedHandler's queue, bracket expressions in patterns, several threads.
Of lsl/misc/rfutils.py: rounding, dimensions that do not fit, infinities from a division by zero.
Of lsl/common/color.py: the escapes of the re.sub template (texts with backslashes are excluded).
Of lsl/catalog.py: the PKS, PKS90, 3C, 4C and Fermi catalogs, the conversion of the angles to degrees, the debug messages; floats are abstract.
Of scripts/splitDRX.py: the approach to the offset, the names of the files, the messages.  Of lsl/transform.py: calendar dates and strings (astropy), and everything but Time; floating-point rounding.  Of lsl/statistics/stattests.py: the square root and the normal distribution.
Of lsl/statistics/kurtosis.py: the distribution itself.  Of lsl/misc/scattering.py: the broadening functions, the figure of merit and the restoring of the profile; nan and infinities as values.
Of lsl/imaging/analysis.py: estimate_background, the convolution and its kernel, the messages; nan and infinities from a division by zero (a peak of value zero, a box of sum zero).
Of the MIB classes of lsl/common/mcs.py: the gdbm database itself, the splitting of the lines, update times, records shorter than the structure.
Of estimate_background: the median that nan are replaced by, the spline, negative windows, rounding.
Of lsl/writer/virtual.py: the conversion of times, the antenna array and (u,v,w) coordinates, the cut of baselines in get_data_set (get_uv_range itself is modelled in M_Vis).
Of lsl/correlator/filterbank.py: complex samples, the sinc coefficients and windows (parameters), rounding.
