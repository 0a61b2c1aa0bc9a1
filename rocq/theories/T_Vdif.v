(** Property theorems (generated from P_VdifT.v by tools/gen_theorems.py). *)
From Coq Require Import List ZArith Bool Lia QArith.
From Verif Require Import M_Buffer M_BufferModes P_BufferModes M_Vdif S_Vdif S_VdifRun P_Drx P_Drx2 P_Vdif P_Vdif2 P_Vdif3 P_VdifT.
Import ListNotations.
Open Scope Z_scope.
Ltac Zify.zify_post_hook ::= Z.div_mod_to_equations.

(** C21: a recorded frame (any bit depth 1/2/4/8, any number of channels, real
    or complex, legacy or not) found anywhere in a file is returned with every
    header field as recorded, and with the recorded samples, by channel and in
    time order; exactly the frame is consumed.  [lut] is the level table:
    read_frame has [lut_f32], read_frame_i8 [lut_i8]. *)
Theorem C21_vdif_decode : forall V (lut : Z -> Z -> V) before after r, vdif_ok r ->
  let data := before ++ vdif_bytes r ++ after in
  exists h x, read_vdif lut (mkFile data (zlen before)) = (mkFile data (zlen before + frame_len r), VGot (h, x)) /\
    zlen (vdif_bytes r) = frame_len r /\ shows lut r h x.
Proof. exact C21_vdif_decode_proof. Qed.
Print Assumptions C21_vdif_decode.

(** Bytes of a frame, and what the reader makes of it. *)
Example C21_vdif_decode_example :
  vdif_ok (demo_vdif 3 1000000 77) /\ vdif_ok demo_legacy /\
  vdif_bytes (demo_vdif 3 1000000 77) =
    [64; 66; 15; 0;  77; 0; 0; 41;  5; 0; 0; 33;  83; 75; 3; 140;  144; 76; 0; 1;  7; 0; 0; 0;  8; 0; 0; 0;  9; 0; 0; 0;
     16; 50; 84; 118; 152; 186; 220; 254] /\
  (let f := mkFile ([1; 2; 3] ++ vdif_bytes (demo_vdif 3 1000000 77) ++ [4]) 3 in
   read_vdif lut_i8 f =
    (mkFile (f_data f) 43, VGot (mkVH 0 0 1000000 41 77 1 2 5 1 4 3 19283 16796816 7 8 9,
       Complex [[(-8, -7); (-4, -3); (0, 1); (4, 5)]; [(-6, -5); (-2, -1); (2, 3); (6, 7)]]))).
Proof. exact C21_vdif_decode_example_proof. Qed.

(** The levels of read_frame: symmetric about zero for 1, 2 and 8 bits, proportional to l - 8 for 4 bits, and rising
    with the code for all. *)
Theorem C21_vdif_levels : forall bits l, In bits [1; 2; 4; 8] -> 0 <= l < 2 ^ bits ->
  (bits <> 4 -> (lut_f32 bits (2 ^ bits - 1 - l) == - lut_f32 bits l)%Q) /\
  (bits = 4 -> (lut_f32 bits l * (295 # 100) == inject_Z (l - 8))%Q) /\
  (0 < l -> (lut_f32 bits (l - 1) < lut_f32 bits l)%Q) /\
  (bits = 8 -> (lut_f32 bits l - lut_f32 bits 0 == inject_Z l / 128)%Q).
Proof. exact C21_vdif_levels_proof. Qed.
Print Assumptions C21_vdif_levels.

Example C21_vdif_levels_example : (lut_f32 8 0 == -(255 # 256))%Q /\ (lut_f32 8 255 == 255 # 256)%Q /\ (lut_f32 4 15 == 7 / (295 # 100))%Q.
Proof. exact C21_vdif_levels_example_proof. Qed.

(** A file that is a sequence of recorded frames (of any shapes) is returned
    frame by frame, in order, and then EOFError is raised. *)
Theorem C21_vdif_stream : forall V (lut : Z -> Z -> V) before rs, Forall vdif_ok rs ->
  let data := before ++ flat_map vdif_bytes rs in
  exists l, vreads (read_vdif lut) (1 + length rs) (mkFile data (zlen before)) =
      (mkFile data (zlen data), l, Some EOFError) /\
    Forall2 (fun r hx => shows lut r (fst hx) (snd hx)) rs l.
Proof. exact C21_vdif_stream_proof. Qed.
Print Assumptions C21_vdif_stream.

Example C21_vdif_stream_example :
  Forall vdif_ok [demo_vdif 3 1000000 77; demo_legacy; demo_vdif 4 0 0].
Proof. exact C21_vdif_stream_example_proof. Qed.

(** Any bytes at all: read_frame returns a frame of the length its header
    announces, or raises EOFError at the end of the data, or SyncError without
    moving, or RuntimeError/MemoryError for an impossible sample format, having
    moved forward; the file is never changed nor the position moved outside it. *)
Theorem C21_vdif_total : forall V (lut : Z -> Z -> V) f f' r, 0 <= f_pos f <= zlen (f_data f) ->
  read_vdif lut f = (f', r) ->
  f_data f' = f_data f /\
  match r with
  | VGot (h, _) => f_pos f' = f_pos f + 8 * h_length h /\ 16 <= 8 * h_length h /\ f_pos f' <= zlen (f_data f)
  | VSync loc => f' = f /\ loc = f_pos f
  | VEof => f_pos f' = zlen (f_data f)
  | VExc e => (e = RuntimeError \/ e = MemoryError) /\ f_pos f + 16 <= f_pos f' <= zlen (f_data f)
  end.
Proof. exact C21_vdif_total_proof. Qed.
Print Assumptions C21_vdif_total.

(** The four kinds of failure do occur. *)
Example C21_vdif_total_example :
  let z16 := repeat 0 16 in
  read_vdif lut_i8 (mkFile z16 0) = (mkFile z16 0, VSync 0) /\
  read_vdif lut_i8 (mkFile z16 1) = (mkFile z16 16, VEof) /\
  (let d := [0; 0; 0; 64; 0; 0; 0; 0; 3; 0; 0; 0; 0; 0; 0; 8] ++ repeat 0 8 in      (* 3 bits per sample *)
   read_vdif lut_i8 (mkFile d 0) = (mkFile d 24, VExc RuntimeError)) /\
  (let d := [0; 0; 0; 64; 0; 0; 0; 0; 3; 0; 0; 4; 0; 0; 0; 28] ++ repeat 0 8 in     (* 16 channels, 8 samples *)
   read_vdif lut_i8 (mkFile d 0) = (mkFile d 24, VExc MemoryError)).
Proof. exact C21_vdif_total_example_proof. Qed.

(** C22: a frame written with 1, 2, 4 or 8 bits, real or complex, whose
    samples (truncated toward zero) are in range and fill whole 8-byte units, reads back,
    wherever it is in the file, with the same time, frame number, station, bit depth, sample
    rate (kHz) and samples.  (The version field comes back as 2 and the thread as 0.) *)
Theorem C22_vdif_write_read : forall V (lut : Z -> Z -> V) before after bits stand secs epoch frame khz d,
  In bits [1; 2; 4; 8] ->
  0 <= stand < 2 ^ 16 -> 0 <= secs < 2 ^ 30 -> 0 <= epoch < 2 ^ 6 -> 0 <= frame < 2 ^ 24 -> 0 <= khz < 2 ^ 23 ->
  Forall (fun v => - 2 ^ (bits - 1) <= v < 2 ^ (bits - 1)) (interlaced d) ->
  zlen (interlaced d) * bits mod 64 = 0 -> 32 + zlen (interlaced d) * bits / 8 < 2 ^ 27 ->
  exists bytes h, write_vdif bits stand secs epoch frame khz d = Ok bytes /\
    zlen bytes = 32 + zlen (interlaced d) * bits / 8 /\
    (let data := before ++ bytes ++ after in
     read_vdif lut (mkFile data (zlen before)) =
       (mkFile data (zlen before + zlen bytes), VGot (h, expect lut bits d))) /\
    h_secs h = secs /\ h_epoch h = epoch /\ h_frame h = frame /\ h_station h = stand /\ h_bits h = bits /\
    h_complex h = (if w_isreal d then 0 else 1) /\ h_nchan h = 1 /\ 8 * h_length h = zlen bytes /\
    h_invalid h = 0 /\ h_legacy h = 0 /\ h_thread h = 0 /\ h_version h = 2 /\
    user_rate (h_ext1 h) = Ok (Some (khz, false)).
Proof. exact C22_vdif_write_read_proof. Qed.
Print Assumptions C22_vdif_write_read.

Example C22_vdif_write_read_example :
  let d := WComplex [(3 # 2, -1 # 1); (-15 # 2, 0 # 1); (7 # 1, -8 # 1); (1 # 3, -1 # 3);
                     (1 # 1, 2 # 1); (3 # 1, 4 # 1); (5 # 1, 6 # 1); (-5 # 1, -6 # 1)]%Q in
  Forall (fun v => - 2 ^ (4 - 1) <= v < 2 ^ (4 - 1)) (interlaced d) /\ zlen (interlaced d) * 4 mod 64 = 0 /\
  expect lut_i8 4 d = Complex [[(1, -1); (-7, 0); (7, -8); (0, 0); (1, 2); (3, 4); (5, 6); (-5, -6)]].
Proof. exact C22_vdif_write_read_example_proof. Qed.

(** With read_frame_i8, real 4- and 8-bit data come back as the very integers
    written; 1- and 2-bit data as the symmetric levels 2v+1. *)
Theorem C22_vdif_i8_values : forall before after bits stand secs epoch frame khz l,
  In bits [1; 2; 4; 8] ->
  0 <= stand < 2 ^ 16 -> 0 <= secs < 2 ^ 30 -> 0 <= epoch < 2 ^ 6 -> 0 <= frame < 2 ^ 24 -> 0 <= khz < 2 ^ 23 ->
  Forall (fun v => - 2 ^ (bits - 1) <= v < 2 ^ (bits - 1)) l ->
  zlen l * bits mod 64 = 0 -> 32 + zlen l * bits / 8 < 2 ^ 27 ->
  exists bytes h, write_vdif bits stand secs epoch frame khz (WReal (map inject_Z l)) = Ok bytes /\
    let data := before ++ bytes ++ after in
    read_i8_real (mkFile data (zlen before)) =
      (mkFile data (zlen before + zlen bytes), VGot (h, Real [if bits <? 4 then map (fun v => 2 * v + 1) l else l])).
Proof. exact C22_vdif_i8_values_proof. Qed.
Print Assumptions C22_vdif_i8_values.

Example C22_vdif_i8_values_example :
  Forall (fun v => - 2 ^ (8 - 1) <= v < 2 ^ (8 - 1)) [-128; 0; 127; 3; 4; 5; 6; -7] /\ zlen [-128; 0; 127; 3; 4; 5; 6; -7] * 8 mod 64 = 0.
Proof. exact C22_vdif_i8_values_example_proof. Qed.

(** Whole 32-bit words are not enough: with an odd number of words the
    length field is 4 bytes short, so the reader loses the last samples and the next frame is
    read from inside this one. *)
Theorem C22_vdif_odd_words_refuted : exists bytes h,
  write_vdif 8 1 0 0 0 1000 (WReal (map inject_Z [1; 2; 3; 4; 5; 6; 7; 8; 9; 10; 11; 12])) = Ok bytes /\
  zlen bytes = 44 /\
  read_i8_real (mkFile (bytes ++ bytes) 0) =
    (mkFile (bytes ++ bytes) 40, VGot (h, Real [[1; 2; 3; 4; 5; 6; 7; 8]])) /\
  match read_i8_real (mkFile (bytes ++ bytes) 40) with (_, VGot _) => False | _ => True end.
Proof. exact C22_vdif_odd_words_refuted_proof. Qed.
Print Assumptions C22_vdif_odd_words_refuted.

(** A sample count that is not a whole number of words loses samples silently
    or fails with IndexError. *)
Theorem C22_vdif_partial_word_refuted :
  (exists bytes, write_vdif 1 1 0 0 0 1000 (WReal (map inject_Z (repeat 0 67))) = Ok bytes /\ zlen bytes = 40) /\
  write_vdif 1 1 0 0 0 1000 (WReal (map inject_Z (repeat 0 72))) = Raise IndexError.
Proof. exact C22_vdif_partial_word_refuted_proof. Qed.
Print Assumptions C22_vdif_partial_word_refuted.

(** Values out of range wrap round instead of saturating: the largest
    positive overflow reads back as the most negative value. *)
Theorem C22_vdif_overflow_refuted : exists bytes h,
  write_vdif 8 1 0 0 0 1000 (WReal (map inject_Z [128; 127; -129; 0; 0; 0; 0; 0])) = Ok bytes /\
  read_i8_real (mkFile bytes 0) = (mkFile bytes 40, VGot (h, Real [[-128; 127; 127; 0; 0; 0; 0; 0]])).
Proof. exact C22_vdif_overflow_refuted_proof. Qed.
Print Assumptions C22_vdif_overflow_refuted.

(** C47: frames are buffered in order of second and frame number as long as
    there are fewer than a million frames in a second. *)
Theorem C47_vdif_buffer_order : forall f g, 0 <= v_fis f < 1000000 -> 0 <= v_fis g < 1000000 ->
  (o_fom vdif_ops f < o_fom vdif_ops g <-> v_sec f < v_sec g \/ v_sec f = v_sec g /\ v_fis f < v_fis g) /\
  (o_fom vdif_ops f = o_fom vdif_ops g <-> v_sec f = v_sec g /\ v_fis f = v_fis g).
Proof. exact C47_vdif_buffer_order_proof. Qed.
Print Assumptions C47_vdif_buffer_order.

Example C47_vdif_buffer_order_example :
  o_fom vdif_ops (mkVdif 5 999999 0 0 [] true) < o_fom vdif_ops (mkVdif 6 0 0 0 [] true).
Proof. exact C47_vdif_buffer_order_example_proof. Qed.

(** The 24-bit frame number allows more, and then frames of different seconds
    are taken for the same time. *)
Theorem C47_vdif_buffer_order_refuted : exists f g, v_fis f < 2 ^ 24 /\ v_fis g < 2 ^ 24 /\
  v_sec f < v_sec g /\ o_fom vdif_ops f = o_fom vdif_ops g.
Proof. exact C47_vdif_buffer_order_refuted_proof. Qed.
Print Assumptions C47_vdif_buffer_order_refuted.

(** C49: on a stream of recorded frames get_frame_size and get_thread_count
    return the first frame's size and the number of distinct threads among the
    first 1024 frames, and leave the file as it was. *)
Theorem C49_vdif_describe : forall V (lut : Z -> Z -> V) before r rs threads, Forall vdif_ok (r :: rs) ->
  NoDup threads -> (forall t, In t threads <-> In t (map r_thread (firstn 1024 (r :: rs)))) ->
  let f := mkFile (before ++ flat_map vdif_bytes (r :: rs)) (zlen before) in
  v_frame_size (read_vdif lut) f = (f, Ok (zlen (vdif_bytes r))) /\
  thread_count (read_vdif lut) f = (f, Ok (zlen threads)).
Proof. exact C49_vdif_describe_proof. Qed.
Print Assumptions C49_vdif_describe.

Example C49_vdif_describe_example :
  let rs := [demo_vdif 3 0 0; demo_legacy; demo_vdif 3 0 1] in
  Forall vdif_ok rs /\ NoDup [3; 1023] /\ (forall t, In t [3; 1023] <-> In t (map r_thread (firstn 1024 rs))).
Proof. exact C49_vdif_describe_example_proof. Qed.

(** In a regular recording of [R] frames per second (any number of threads up
    to 1024, any samples) get_frames_per_second returns [R] and get_sample_rate
    [R] times the samples per channel of a frame, provided the file does not start with the last
    frame of a second and contains the start of the next second. *)
Theorem C49_vdif_rate : forall V (lut : Z -> Z -> V) before R s0 k0 n ts r rs,
  Forall vdif_ok (r :: rs) -> NoDup ts -> 1 <= zlen ts <= 1024 -> 1 < R -> 0 <= k0 ->
  regular R s0 k0 n ts (r :: rs) ->
  k0 mod R < R - 1 -> R * (k0 / R + 1) < k0 + Z.of_nat n ->
  let f := mkFile (before ++ flat_map vdif_bytes (r :: rs)) (zlen before) in
  frames_per_second (read_vdif lut) f = (f, Ok R) /\
  sample_rate_of (read_vdif lut) f = (f, Ok (zlen (r_levels r) / parts r / 2 ^ r_lognchan r * R)).
Proof. exact C49_vdif_rate_proof. Qed.
Print Assumptions C49_vdif_rate.

Example C49_vdif_rate_example :
  let rs := demo_rec 5 100 12 4 [7; 2; 9] in
  Forall vdif_ok rs /\ regular 5 100 12 4 [7; 2; 9] rs /\ 12 mod 5 < 5 - 1 /\ 5 * (12 / 5 + 1) < 12 + Z.of_nat 4.
Proof. exact C49_vdif_rate_example_proof. Qed.

(** Neither proviso can be dropped: a regular recording of 5 frames per second
    is reported as 1 frame per second when it starts with the last frame of a second, and as fewer
    than recorded when it ends before the second does. *)
Theorem C49_vdif_rate_refuted : exists rs1 rs2,
  regular 5 0 4 7 [0] rs1 /\ regular 5 0 0 3 [0] rs2 /\ Forall vdif_ok rs1 /\ Forall vdif_ok rs2 /\
  (let f := mkFile (flat_map vdif_bytes rs1) 0 in snd (frames_per_second read_i8_real f) = Ok 1) /\
  (let f := mkFile (flat_map vdif_bytes rs2) 0 in snd (frames_per_second read_i8_real f) = Ok 3).
Proof. exact C49_vdif_rate_refuted_proof. Qed.
Print Assumptions C49_vdif_rate_refuted.

(** A thread that does not appear among the first frames (as many as there are
    threads) makes get_frames_per_second fail with KeyError. *)
Theorem C49_vdif_uneven_threads_refuted : exists rs, Forall vdif_ok rs /\
  snd (frames_per_second read_i8_real (mkFile (flat_map vdif_bytes rs) 0)) = Raise KeyError.
Proof. exact C49_vdif_uneven_threads_refuted_proof. Qed.
Print Assumptions C49_vdif_uneven_threads_refuted.
