(** Property theorems (generated from P_DrxT.v by tools/gen_theorems.py). *)
From Coq Require Import List ZArith Bool Lia QArith.
From Verif Require Import M_Drx M_SimDrx S_Drx P_Drx P_Drx2 P_DrxT.
Import ListNotations.
Open Scope Z_scope.
Ltac Zify.zify_post_hook ::= Z.div_mod_to_equations.

(** C12: a well-formed frame anywhere in a file (any bytes before and after) is
    read with exactly its recorded fields and samples, its identifier decodes
    to (beam, tuning, pol), it is recognised as DRX, and the file position
    advances by 4128 with the content unchanged. *)
Theorem C12_drx_decode : forall before after r, well_formed_drx r ->
  let data := before ++ drx_bytes r ++ after in
  exists d, read_drx (mkFile data (zlen before)) = (mkFile data (zlen before + 4128), Got d) /\
    d_count d = r_count r /\ d_secs d = r_secs r /\ d_dec d = r_dec r /\ d_toff d = r_toff r /\
    d_tag d = r_tag r /\ d_tune d = r_word r /\ d_flags d = r_flags r /\
    d_data d = interleave (r_samples r) /\
    drx_id_tuple (d_id d) = (r_beam r, r_tune r, r_pol r) /\ is_drx d = true /\ is_drx8 d = false.
Proof. exact C12_drx_decode_proof. Qed.
Print Assumptions C12_drx_decode.

Example C12_drx_decode_example : well_formed_drx demo_record /\
  zlen (drx_bytes demo_record) = 4128 /\
  (exists d, read_drx (mkFile ([7; 8] ++ drx_bytes demo_record ++ [9]) 2) = (mkFile ([7; 8] ++ drx_bytes demo_record ++ [9]) 4130, Got d)
     /\ znth 0 0 (d_data d) = -8 /\ znth 0 1 (d_data d) = -8 /\ znth 0 8191 (d_data d) = 7 /\ d_tag d = 2 ^ 64 - 1).
Proof. exact C12_drx_decode_example_proof. Qed.

(** C14: the same for DRX8. *)
Theorem C14_drx8_decode : forall before after r, well_formed_drx8 r ->
  let data := before ++ drx8_bytes r ++ after in
  exists d, read_drx8 (mkFile data (zlen before)) = (mkFile data (zlen before + 8224), Got d) /\
    d_count d = r_count r /\ d_secs d = r_secs r /\ d_dec d = r_dec r /\ d_toff d = r_toff r /\
    d_tag d = r_tag r /\ d_tune d = r_word r /\ d_flags d = r_flags r /\
    d_data d = interleave (r_samples r) /\
    drx_id_tuple (d_id d) = (r_beam r, r_tune r, r_pol r) /\ is_drx d = false /\ is_drx8 d = true.
Proof. exact C14_drx8_decode_proof. Qed.
Print Assumptions C14_drx8_decode.

Example C14_drx8_decode_example : well_formed_drx8 demo8_record /\ zlen (drx8_bytes demo8_record) = 8224.
Proof. exact C14_drx8_decode_example_proof. Qed.

(** C13: on any byte string at any position, a DRX read raises EOF exactly when
    fewer than 4128 bytes are left (consuming them), returns a frame exactly
    when the next four bytes are the sync word, and otherwise reports a sync
    error located at the frame start; the last two consume 4128 bytes. *)
Theorem C13_drx_read_total : forall data pos f' r, bytes_ok data -> 0 <= pos <= zlen data ->
  read_drx (mkFile data pos) = (f', r) ->
  let left := zlen data - pos in
  let synced := ztake 4 (zdrop pos data) = [222; 192; 222; 92] in
  f_data f' = data /\ f_pos f' = pos + Z.min 4128 left /\
  (r = AtEOF <-> left < 4128) /\
  ((exists d, r = Got d) <-> 4128 <= left /\ synced) /\
  (forall loc, r = BadSync loc <-> loc = pos /\ 4128 <= left /\ ~ synced).
Proof. exact C13_drx_read_total_proof. Qed.
Print Assumptions C13_drx_read_total.

(** The same for DRX8 with its frame size. *)
Theorem C13_drx8_read_total : forall data pos f' r, bytes_ok data -> 0 <= pos <= zlen data ->
  read_drx8 (mkFile data pos) = (f', r) ->
  let left := zlen data - pos in
  let synced := ztake 4 (zdrop pos data) = [222; 192; 222; 92] in
  f_data f' = data /\ f_pos f' = pos + Z.min 8224 left /\
  (r = AtEOF <-> left < 8224) /\
  ((exists d, r = Got d) <-> 8224 <= left /\ synced) /\
  (forall loc, r = BadSync loc <-> loc = pos /\ 8224 <= left /\ ~ synced).
Proof. exact C13_drx8_read_total_proof. Qed.
Print Assumptions C13_drx8_read_total.

Example C13_drx_read_total_example :
  bytes_ok (repeat 0 (Z.to_nat 4128)) /\
  snd (read_drx (mkFile (repeat 0 (Z.to_nat 4128)) 0)) = BadSync 0 /\
  snd (read_drx (mkFile (repeat 0 (Z.to_nat 4128)) 1)) = AtEOF.
Proof. exact C13_drx_read_total_example_proof. Qed.

(** Reading a concatenation of well-formed frames, possibly followed by an
    incomplete one, returns all the frames in order, then EOF. *)
Theorem C13_drx_stream : forall rs tail f, Forall well_formed_drx rs -> zlen tail < 4128 ->
  f = mkFile (flat_map drx_bytes rs ++ tail) 0 ->
  exists f' ds, read_n read_drx (length rs) f = (f', ds, None) /\
    map (fun d => (drx_id_tuple (d_id d), d_count d, d_tag d, d_data d)) ds =
    map (fun r => ((r_beam r, r_tune r, r_pol r), r_count r, r_tag r, interleave (r_samples r))) rs /\
    snd (read_drx f') = AtEOF.
Proof. exact C13_drx_stream_proof. Qed.
Print Assumptions C13_drx_stream.

Example C13_drx_stream_example : Forall well_formed_drx [demo_record; demo_record] /\ zlen [1; 2; 3] < 4128.
Proof. exact C13_drx_stream_example_proof. Qed.

Theorem C13_drx8_stream : forall rs tail f, Forall well_formed_drx8 rs -> zlen tail < 8224 ->
  f = mkFile (flat_map drx8_bytes rs ++ tail) 0 ->
  exists f' ds, read_n read_drx8 (length rs) f = (f', ds, None) /\
    map (fun d => (drx_id_tuple (d_id d), d_count d, d_tag d, d_data d)) ds =
    map (fun r => ((r_beam r, r_tune r, r_pol r), r_count r, r_tag r, interleave (r_samples r))) rs /\
    snd (read_drx8 f') = AtEOF.
Proof. exact C13_drx8_stream_proof. Qed.
Print Assumptions C13_drx8_stream.

(** C15: packing then decoding gives back beam, tuning and polarisation. *)
Theorem C15_id_roundtrip : forall beam tune pol, 0 <= beam < 8 -> 0 <= tune < 8 -> 0 <= pol < 2 ->
  drx_id_tuple (make_drx_id beam tune pol) = (beam, tune, pol) /\
  0 <= make_drx_id beam tune pol < 256.
Proof. exact C15_id_roundtrip_proof. Qed.
Print Assumptions C15_id_roundtrip.

(** Distinct triples have distinct identifiers. *)
Theorem C15_id_injective : forall b1 t1 p1 b2 t2 p2,
  0 <= b1 < 8 -> 0 <= t1 < 8 -> 0 <= p1 < 2 -> 0 <= b2 < 8 -> 0 <= t2 < 8 -> 0 <= p2 < 2 ->
  make_drx_id b1 t1 p1 = make_drx_id b2 t2 p2 -> b1 = b2 /\ t1 = t2 /\ p1 = p2.
Proof. exact C15_id_injective_proof. Qed.
Print Assumptions C15_id_injective.

(** Every identifier byte is either DRX or DRX8, never both, and the identifiers
    the simulator makes are DRX. *)
Theorem C15_drx_or_drx8 : forall d, 0 <= d_id d < 256 ->
  is_drx d = negb (is_drx8 d) /\
  (forall b t p, d_id d = make_drx_id b t p -> is_drx d = true).
Proof. exact C15_drx_or_drx8_proof. Qed.
Print Assumptions C15_drx_or_drx8.

Example C15_id_example : make_drx_id 4 2 1 = 148 /\ drx_id_tuple 148 = (4, 2, 1) /\ drx_id_tuple (148 + 64) = (4, 2, 1).
Proof. exact C15_id_example_proof. Qed.

(** C17: the value written for a floating point sample is the nearest integer
    (ties to even) saturated to [-8, 7]. *)
Theorem C17_quantise_nearest_saturating : forall l,
  map fst (quantise (Cplx l)) = map (fun s => saturate (-8) 7 (round_even (fst s))) l /\
  map snd (quantise (Cplx l)) = map (fun s => saturate (-8) 7 (round_even (snd s))) l /\
  (forall q, nearest_even q (round_even q)) /\ (forall q k, nearest_even q k -> round_even q = k).
Proof. exact C17_quantise_nearest_saturating_proof. Qed.
Print Assumptions C17_quantise_nearest_saturating.

(** Quantising is the identity on representable integers, hence idempotent,
    monotone, and what is read back is the quantised value: nothing wraps. *)
Theorem C17_quantise_idempotent : forall l,
  Forall (fits (-8) 7) (quantise (Cplx l)) /\
  quantise (Cplx (map (fun s => (inject_Z (fst s), inject_Z (snd s))) (quantise (Cplx l)))) = quantise (Cplx l) /\
  (forall s, Forall (fits (-8) 7) s -> quantise (Cplx (map (fun s => (inject_Z (fst s), inject_Z (snd s))) s)) = s).
Proof. exact C17_quantise_idempotent_proof. Qed.
Print Assumptions C17_quantise_idempotent.

Theorem C17_quantise_monotone : forall a b, (a <= b)%Q ->
  saturate (-8) 7 (round_even a) <= saturate (-8) 7 (round_even b).
Proof. exact C17_quantise_monotone_proof. Qed.
Print Assumptions C17_quantise_monotone.

Example C17_quantise_example :
  quantise (Cplx [((5 # 2)%Q, (7 # 2)%Q); ((1000 # 3)%Q, (-1000 # 3)%Q); ((-1 # 2)%Q, (3 # 4)%Q)]) = [(2, 4); (7, -8); (0, 1)].
Proof. exact C17_quantise_example_proof. Qed.

(** Integer (CI8) samples are not saturated: a frame holding 8-bit samples is accepted as
    valid and the sample 8 is written, and read back, as -8. *)
Theorem C17_ci8_wraps_refuted : exists s, sim_is_valid true s = Ok true /\
  exists raw d f', create_raw_frame s = Ok raw /\ read_drx (mkFile raw 0) = (f', Got d) /\
    s_data s = Some (Ci8 (repeat (8, 100) (Z.to_nat 4096))) /\ znth 0 0 (d_data d) = -8 /\ znth 0 1 (d_data d) = 4.
Proof. exact C17_ci8_wraps_refuted_proof. Qed.
Print Assumptions C17_ci8_wraps_refuted.

(** C16: every frame that is written whose samples are floating point and
    whose fields fit the format is written as 4128 bytes that read back, from any place in a file,
    with the same identifier, decimation, time offset, time tag, flags and the
    quantised samples.  Missing: the tuning word is not written (refuted below),
    and the frame and second counts are always written as zero. *)
Theorem C16_sim_roundtrip_partial : forall s l before after,
  s_data s = Some (Cplx l) ->
  0 <= s_dec s < 2 ^ 16 -> 0 <= s_toff s < 2 ^ 16 -> 0 <= s_time s < 2 ^ 64 -> 0 <= s_flags s < 2 ^ 32 ->
  1 <= s_beam s <= 4 -> 1 <= s_tune s <= 2 -> 0 <= s_pol s <= 1 -> zlen l = 4096 ->
  sim_is_valid true s = Ok true /\
  exists raw, create_raw_frame s = Ok raw /\ zlen raw = 4128 /\
  exists d, read_drx (mkFile (before ++ raw ++ after) (zlen before)) =
      (mkFile (before ++ raw ++ after) (zlen before + 4128), Got d) /\
    drx_id_tuple (d_id d) = (s_beam s, s_tune s, s_pol s) /\
    d_dec d = s_dec s /\ d_toff d = s_toff s /\ d_tag d = s_time s /\ d_flags d = s_flags s /\
    d_data d = interleave (quantise (Cplx l)).
Proof. exact C16_sim_roundtrip_partial_proof. Qed.
Print Assumptions C16_sim_roundtrip_partial.

(** The tuning word is never written: whatever frame is built or loaded, the
    written frame reads back with tuning word 0 (and frame and second count 0). *)
Theorem C16_tuning_word_never_written : forall s l raw f' d,
  s_data s = Some (Cplx l) -> create_raw_frame s = Ok raw ->
  0 <= s_dec s < 2 ^ 16 -> 0 <= s_toff s < 2 ^ 16 -> 0 <= s_time s < 2 ^ 64 -> 0 <= s_flags s < 2 ^ 32 ->
  read_drx (mkFile raw 0) = (f', Got d) -> d_tune d = 0 /\ d_count d = 0 /\ d_secs d = 0.
Proof. exact C16_tuning_word_never_written_proof. Qed.
Print Assumptions C16_tuning_word_never_written.

Example C16_sim_roundtrip_example : sim_is_valid true demo_sim = Ok true /\
  exists raw, create_raw_frame demo_sim = Ok raw.
Proof. exact C16_sim_roundtrip_example_proof. Qed.

(** The tuning word of a frame that was read from a file, loaded into a
    simulated frame and written again is lost. *)
Theorem C16_tuning_word_lost_refuted : exists r d raw d' f1 f2, well_formed_drx r /\ r_word r <> 0 /\
    read_drx (mkFile (drx_bytes r) 0) = (f1, Got d) /\ d_tune d = r_word r /\
    create_raw_frame (load_frame d) = Ok raw /\
    read_drx (mkFile raw 0) = (f2, Got d') /\ d_tune d' = 0.
Proof. exact C16_tuning_word_lost_refuted_proof. Qed.
Print Assumptions C16_tuning_word_lost_refuted.

(** create_raw_frame ignores a False answer of is_valid: a frame with an
    unreasonable time offset is written (with the offset truncated to 16 bits). *)
Theorem C16_invalid_offset_written_refuted : exists s raw d f',
  sim_is_valid false s = Ok false /\ create_raw_frame s = Ok raw /\
  read_drx (mkFile raw 0) = (f', Got d) /\ d_toff d <> s_toff s.
Proof. exact C16_invalid_offset_written_refuted_proof. Qed.
Print Assumptions C16_invalid_offset_written_refuted.

(** Beams outside 1-4 are accepted when their low three bits are in 1-4, and
    are written under another beam number. *)
Theorem C16_wrong_beam_accepted_refuted : exists s, s_beam s = 9 /\ sim_is_valid true s = Ok true /\
  exists raw d f', create_raw_frame s = Ok raw /\ read_drx (mkFile raw 0) = (f', Got d) /\
    fst (fst (drx_id_tuple (d_id d))) = 1.
Proof. exact C16_wrong_beam_accepted_refuted_proof. Qed.
Print Assumptions C16_wrong_beam_accepted_refuted.

(** get_beam_count returns the number of distinct beams among the first 32
    frames and leaves the file as it was. *)
Theorem C45_beam_count : forall rs before tail, Forall well_formed_drx rs -> (32 <= length rs)%nat ->
  let f := mkFile (before ++ flat_map drx_bytes rs ++ tail) (zlen before) in
  beam_count read_drx f = (f, Ok (zlen (nodup Z.eq_dec (map r_beam (firstn 32 rs))))).
Proof. exact C45_beam_count_proof. Qed.
Print Assumptions C45_beam_count.

Example C45_beam_count_example :
  Forall well_formed_drx (repeat demo_record 32) /\ length (repeat demo_record 32) = 32%nat.
Proof. exact C45_beam_count_example_proof. Qed.

(** get_frames_per_obs returns, for beams 1 to 4, the number of distinct
    identifiers (tuning/polarisation combinations) of that beam among the first
    32 frames, and leaves the file as it was. *)
Theorem C45_frames_per_obs_partial : forall rs before tail, Forall well_formed_drx rs -> (32 <= length rs)%nat ->
  Forall (fun r => 1 <= r_beam r <= 4) (firstn 32 rs) ->
  let f := mkFile (before ++ flat_map drx_bytes rs ++ tail) (zlen before) in
  let of_beam k := nodup Z.eq_dec (map (id_byte false) (filter (fun r => r_beam r =? k) (firstn 32 rs))) in
  frames_per_obs read_drx f = (f, Ok [zlen (of_beam 1); zlen (of_beam 2); zlen (of_beam 3); zlen (of_beam 4)]).
Proof. exact C45_frames_per_obs_partial_proof. Qed.
Print Assumptions C45_frames_per_obs_partial.

Example C45_frames_per_obs_example :
  Forall (fun r => 1 <= r_beam r <= 4) (firstn 32 (repeat demo_record 32)).
Proof. exact C45_frames_per_obs_example_proof. Qed.

(** A well-formed stream of beam 5 makes get_frames_per_obs fail, and beam 0 is
    counted as beam 4. *)
Theorem C45_beam5_fails_refuted : exists rs f, Forall well_formed_drx rs /\ length rs = 32%nat /\
  f = mkFile (flat_map drx_bytes rs) 0 /\ snd (frames_per_obs read_drx f) = Raise IndexError /\ snd (beam_count read_drx f) = Ok 1.
Proof. exact C45_beam5_fails_refuted_proof. Qed.
Print Assumptions C45_beam5_fails_refuted.

(** Filter codes: defined exactly for the seven decimations, and inverse to the table. *)
Theorem C45_filter_code : forall dec code, 0 <= dec < 65536 ->
  filter_code dec = Ok code <-> exists rate, In (code, rate) drx_filters /\ rate * dec = 196000000.
Proof. exact C45_filter_code_proof. Qed.
Print Assumptions C45_filter_code.

Example C45_filter_code_example : filter_code 10 = Ok 7 /\ filter_code 784 = Ok 1 /\ filter_code 11 = Raise KeyError.
Proof. exact C45_filter_code_example_proof. Qed.
