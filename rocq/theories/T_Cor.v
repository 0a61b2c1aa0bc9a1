(** Property theorems (generated from P_CorT.v by tools/gen_theorems.py). *)
From Coq Require Import List ZArith Bool Lia.
From Verif Require Import M_Cor S_Drx S_Cor S_CorRun P_Drx P_Drx2 P_Cor P_Tbx P_CorDesc P_CorT.
Import ListNotations.
Open Scope Z_scope.
Ltac Zify.zify_post_hook ::= Z.div_mod_to_equations.

(** C18: for every process history, a well-formed frame of n channels whose
    channel count is the one the reader currently assumes is returned with
    exactly its header, stands and visibilities (YX replaced by the conjugate of
    XY for an autocorrelation), consuming exactly the frame. *)
Theorem C18_cor_decode : forall n st before after r, In n cor_modes -> cor_history st -> assumed_nchan st = n ->
  cor_ok n r -> unambiguous r ->
  let data := before ++ cor_bytes r ++ after in
  exists st' d, read_cor st (mkFile data (zlen before)) = (st', mkFile data (zlen before + (32 + 32 * n)), Got d) /\
    assumed_nchan st' = n /\
    c_id d = k_id r /\ c_count d = k_count r /\ c_secs d = k_secs r /\ c_chan d = k_chan r /\ c_gain d = k_gain r /\
    c_tag d = k_tag r /\ c_navg d = k_navg r /\ c_s0 d = k_s0 r /\ c_s1 d = k_s1 r /\
    c_nchan d = n /\ c_data d = flat_map vis_words (seen_vis r) /\
    (is_cor d = true <-> k_id r = 2 \/ k_id r = 6).
Proof. exact C18_cor_decode_proof. Qed.
Print Assumptions C18_cor_decode.

Example C18_cor_decode_example :
  cor_history cor_fresh /\ assumed_nchan cor_fresh = 192 /\ cor_ok 192 (demo_cor 192 500 3 3) /\ unambiguous (demo_cor 192 500 3 3) /\
  (exists st d, read_cor cor_fresh (mkFile (cor_bytes (demo_cor 192 500 3 3)) 0) = (st, mkFile (cor_bytes (demo_cor 192 500 3 3)) 6176, Got d) /\
    slice 8 8 (c_data d) = [1; 4294967294; 8; 2147483649; 8; 1; 5; 1] /\ c_tag d = 2 ^ 58 /\ c_s0 d = 3).
Proof. exact C18_cor_decode_example_proof. Qed.

(** C18: whatever bytes a frame was read from, its data array has 4 complex
    values per channel, and whenever the two stands are equal the YX product of
    every channel is the conjugate of XY. *)
Theorem C18_cor_hermitian : forall st f st' f' d, cor_history st -> 0 <= f_pos f -> bytes_ok (f_data f) ->
  read_cor st f = (st', f', Got d) ->
  zlen (c_data d) = 8 * c_nchan d /\
  (c_s0 d = c_s1 d -> forall ch, 0 <= ch < c_nchan d ->
    znth 0 (8 * ch + 4) (c_data d) = znth 0 (8 * ch + 2) (c_data d) /\
    znth 0 (8 * ch + 5) (c_data d) = Z.lxor (znth 0 (8 * ch + 3) (c_data d)) (2 ^ 31)).
Proof. exact C18_cor_hermitian_proof. Qed.
Print Assumptions C18_cor_hermitian.

Example C18_cor_hermitian_example : exists st f d, 
  read_cor cor_fresh (mkFile (cor_bytes (demo_cor 192 500 3 3)) 0) = (st, f, Got d) /\ c_s0 d = c_s1 d /\ c_nchan d = 192 /\
  znth 0 (8 * 100 + 3) (c_data d) = 2147483748 /\ znth 0 (8 * 100 + 5) (c_data d) = 100.
Proof. exact C18_cor_hermitian_example_proof. Qed.

(** C19 (partial): for every process history and a file of at least one frame, all of n
    channels, none of them imitating a frame boundary: if the reader currently
    assumes n channels, or more and the frames fill at least one frame of the
    assumed size, then reading returns all frames in order, each with n channels,
    and then reports end of file.  [t] is an incomplete frame at the end.
    Missing: caches that assume fewer channels, short files, imitated
    boundaries - all three refuted below. *)
Theorem C19_cor_stream_partial : forall n st rs before t extra, In n cor_modes -> cor_history st ->
  Forall (fun r => cor_ok n r /\ unambiguous r) rs -> rs <> [] -> zlen t < 32 + 32 * n ->
  (assumed_nchan st = n \/
   (n < assumed_nchan st /\ 32 + 32 * assumed_nchan st <= zlen rs * (32 + 32 * n))) ->
  let data := before ++ flat_map cor_bytes rs ++ t in
  exists st' ds, reads read_cor (length rs + S extra) st (mkFile data (zlen before)) = (st', mkFile data (zlen data), ds, Some EOFError) /\
    map c_nchan ds = map (fun _ => n) rs /\ map c_chan ds = map k_chan rs /\ map c_tag ds = map k_tag rs /\
    map (fun d => (c_s0 d, c_s1 d)) ds = map (fun r => (k_s0 r, k_s1 r)) rs /\
    map c_data ds = map (fun r => flat_map vis_words (seen_vis r)) rs.
Proof. exact C19_cor_stream_partial_proof. Qed.
Print Assumptions C19_cor_stream_partial.

Example C19_cor_stream_example : exists st rs, cor_history st /\ length rs = 6%nat /\ rs <> [] /\
  Forall (fun r => cor_ok 33 r /\ unambiguous r) rs /\
  33 < assumed_nchan st /\ 32 + 32 * assumed_nchan st <= zlen rs * (32 + 32 * 33).
Proof. exact C19_cor_stream_example_proof. Qed.

(** C19 refuted, stale cache: after a 33-channel file has been read in the same
    process, the first frame of a 72-channel file comes back with 33 channels,
    and the next read fails with a sync error in the middle of that frame. *)
Theorem C19_stale_cache_refuted : exists st r, cor_history st /\ cor_ok 72 r /\ unambiguous r /\
  let data := flat_map cor_bytes [r; r; r] in
  exists st1 f1 d, read_cor st (mkFile data 0) = (st1, f1, Got d) /\ c_nchan d = 33 /\ f_pos f1 = 1088 /\
  exists st2 f2, read_cor st1 f1 = (st2, f2, BadSync 1088).
Proof. exact C19_stale_cache_refuted_proof. Qed.
Print Assumptions C19_stale_cache_refuted.

(** C19 refuted, short file: in a fresh process a file of five complete
    33-channel frames reports end of file at the first read and consumes everything. *)
Theorem C19_short_file_refuted : exists r, cor_ok 33 r /\ unambiguous r /\
  let data := flat_map cor_bytes [r; r; r; r; r] in
  exists st, read_cor cor_fresh (mkFile data 0) = (st, mkFile data (zlen data), AtEOF).
Proof. exact C19_short_file_refuted_proof. Qed.
Print Assumptions C19_short_file_refuted.

(** C19 refuted, imitated boundary: a 192-channel frame whose XX real part in
    channel 33 has the bit pattern of the sync word is returned with 33 channels. *)
Theorem C19_imitated_boundary_refuted : exists r, cor_ok 192 r /\
  exists st f d, read_cor cor_fresh (mkFile (cor_bytes r) 0) = (st, f, Got d) /\ c_nchan d = 33.
Proof. exact C19_imitated_boundary_refuted_proof. Qed.
Print Assumptions C19_imitated_boundary_refuted.

(** C19: on any bytes and after any history one read either returns a frame
    whose sync word is present, consuming exactly its size; or raises a sync
    error with the position unchanged, the error's location there and the
    reader's assumption back at its initial value; or reports end of file because
    less than a frame of the assumed size is left. *)
Theorem C19_cor_read_total : forall st f st' f' r, cor_history st -> 0 <= f_pos f -> bytes_ok (f_data f) ->
  read_cor st f = (st', f', r) ->
  let left := zlen (f_data f) - f_pos f in
  let synced := ztake 4 (zdrop (f_pos f) (f_data f)) = sync_bytes in
  f_data f' = f_data f /\
  match r with
  | Got d => synced /\ In (c_nchan d) cor_modes /\ 32 + 32 * c_nchan d <= left /\ f_pos f' = f_pos f + (32 + 32 * c_nchan d) /\
             assumed_nchan st' = c_nchan d /\ c_nchan d <= assumed_nchan st
  | BadSync loc => ~ synced /\ loc = f_pos f /\ f' = f /\ st' = cor_fresh
  | AtEOF => left < 32 + 32 * assumed_nchan st /\ f_pos f' = Z.max (f_pos f) (zlen (f_data f)) /\ assumed_nchan st' = assumed_nchan st
  end.
Proof. exact C19_cor_read_total_proof. Qed.
Print Assumptions C19_cor_read_total.

Example C19_cor_read_total_example :
  (exists st f, read_cor cor_fresh (mkFile (repeat 0 (Z.to_nat 6200)) 7) = (st, f, BadSync 7) /\ f_pos f = 7) /\
  (exists st f, read_cor cor_fresh (mkFile (repeat 0 100) 7) = (st, f, AtEOF) /\ f_pos f = 100).
Proof. exact C19_cor_read_total_example_proof. Qed.

(** C20 (partial): after any history, a file of at least one frame of one supported mode
    returns all frames in order with their fields and samples and then end of
    file, provided a frame of the size the reader currently assumes would fit
    into the file.  The first channel is right when it is below 32768.
    Missing: shorter files and larger first channels, refuted below. *)
Theorem C20_tbx_stream_partial : forall ns nc st rs before t extra, tbx_mode ns nc -> tbx_history st ->
  Forall (tbx_ok ns nc) rs -> rs <> [] -> zlen t < 28 + 2 * ns * nc ->
  assumed_bytes st <= zlen rs * (28 + 2 * ns * nc) + zlen t ->
  let data := before ++ flat_map tbx_bytes rs ++ t in
  exists st' ts, reads read_tbx (length rs + S extra) st (mkFile data (zlen before)) = (st', mkFile data (zlen data), ts, Some EOFError) /\
    map t_id ts = map x_id rs /\ map t_count ts = map x_count rs /\ map t_secs ts = map x_secs rs /\
    map t_tag ts = map x_tag rs /\ map (fun t => (t_nstand t, t_nchan t)) ts = map (fun _ => (ns, nc)) rs /\
    map t_data ts = map (fun r => interleave (x_samples r)) rs /\
    (Forall (fun r => x_chan r < 32768) rs -> map t_chan ts = map x_chan rs).
Proof. exact C20_tbx_stream_partial_proof. Qed.
Print Assumptions C20_tbx_stream_partial.

Example C20_tbx_stream_example : exists rs, tbx_mode 64 4 /\ tbx_history tbx_fresh /\ Forall (tbx_ok 64 4) rs /\
  rs <> [] /\ assumed_bytes tbx_fresh <= zlen rs * (28 + 2 * 64 * 4) + 0 /\ Forall (fun r => x_chan r < 32768) rs.
Proof. exact C20_tbx_stream_example_proof. Qed.

(** C20 refuted, short file: in a fresh process a file of one complete 64-stand,
    4-channel frame reports end of file and consumes it. *)
Theorem C20_short_file_refuted : exists r, tbx_ok 64 4 r /\
  exists st, read_tbx tbx_fresh (mkFile (tbx_bytes r) 0) = (st, mkFile (tbx_bytes r) 540, AtEOF).
Proof. exact C20_short_file_refuted_proof. Qed.
Print Assumptions C20_short_file_refuted.

(** C20 refuted, first channel: a frame whose first channel is 40000 is
    returned with first channel -25536. *)
Theorem C20_first_channel_refuted : exists r, tbx_ok 256 16 r /\ x_chan r = 40000 /\
  exists st f d, read_tbx tbx_fresh (mkFile (tbx_bytes r) 0) = (st, f, Got d) /\ t_chan d = -25536.
Proof. exact C20_first_channel_refuted_proof. Qed.
Print Assumptions C20_first_channel_refuted.

(** C20 refuted for the integer variant: where read_frame raises a sync error,
    read_frame_ci8 raises NameError. *)
Theorem C20_ci8_sync_refuted : exists data st f, read_tbx tbx_fresh (mkFile data 0) = (st, f, BadSync 0) /\
  read_tbx_ci8 tbx_fresh (mkFile data 0) = (st, f, Raise NameError).
Proof. exact C20_ci8_sync_refuted_proof. Qed.
Print Assumptions C20_ci8_sync_refuted.

(** C20: on any bytes and after any history one read of TBX either returns a
    frame of the supported mode its header states, whose sync word is present,
    consuming exactly its size; or raises a sync error at an unchanged position
    because the mode is not supported or the sync word is absent; or
    reports end of file. *)
Theorem C20_tbx_read_total : forall st f st' f' r, tbx_history st -> 0 <= f_pos f -> bytes_ok (f_data f) ->
  read_tbx st f = (st', f', r) ->
  let h := zdrop (f_pos f) (f_data f) in
  let ns := be_val (slice 16 2 h) in
  let nc := be_val (slice 18 2 h) in
  let left := zlen (f_data f) - f_pos f in
  f_data f' = f_data f /\
  match r with
  | Got d => ztake 4 h = sync_bytes /\ tbx_mode ns nc /\ t_nstand d = ns /\ t_nchan d = nc /\
             28 + 2 * ns * nc <= left /\ f_pos f' = f_pos f + (28 + 2 * ns * nc)
  | BadSync loc => (ztake 4 h <> sync_bytes \/ ~ tbx_mode ns nc) /\ loc = f_pos f /\ f' = f
  | AtEOF => f_pos f' = Z.max (f_pos f) (zlen (f_data f)) /\
             (left < assumed_bytes st \/ tbx_mode ns nc /\ left < 28 + 2 * ns * nc)
  end.
Proof. exact C20_tbx_read_total_proof. Qed.
Print Assumptions C20_tbx_read_total.

Example C20_tbx_read_total_example :
  (exists st f, read_tbx tbx_fresh (mkFile (repeat 1 (Z.to_nat 8220)) 0) = (st, f, BadSync 0) /\ f_pos f = 0) /\
  (exists st f, read_tbx tbx_fresh (mkFile (repeat 1 100) 3) = (st, f, AtEOF) /\ f_pos f = 100).
Proof. exact C20_tbx_read_total_example_proof. Qed.

(** C46: all description functions leave the file position where it was, on
    any content and after any history. *)
Theorem C46_position_kept :
  (forall st f, cor_history st -> 0 <= f_pos f -> bytes_ok (f_data f) ->
    (forall st' f' r, frame_size read_cor is_cor st f = (st', f', r) -> f' = f) /\
    (forall st' f' r, cor_channel_count read_cor c_chan c_nchan st f = (st', f', r) -> f' = f) /\
    (forall st' f' r, cor_frames_per_obs read_cor is_cor c_chan c_nchan st f = (st', f', r) -> f' = f)) /\
  (forall st f, tbx_history st -> 0 <= f_pos f -> bytes_ok (f_data f) ->
    (forall st' f' r, frame_size read_tbx is_tbx st f = (st', f', r) -> f' = f) /\
    (forall st' f' r, tbx_frames_per_obs read_tbx is_tbx t_chan st f = (st', f', r) -> f' = f)).
Proof. exact C46_position_kept_proof. Qed.
Print Assumptions C46_position_kept.

(** C46 (partial): for a stream as in C19 whose frames are marked as COR, the
    frame size, the number of channels (over the first 64 frames) and the number of frames per
    observation (32896 baselines) are right; d lists the distinct first
    channels.  Missing: the cases C19 is refuted for. *)
Theorem C46_cor_description_partial : forall n st rs before t d, In n cor_modes -> cor_history st ->
  Forall (fun r => cor_ok n r /\ unambiguous r) rs -> rs <> [] -> zlen t < 32 + 32 * n ->
  Forall (fun r => k_id r = 2 \/ k_id r = 6) rs ->
  (assumed_nchan st = n \/
   (n < assumed_nchan st /\ 32 + 32 * assumed_nchan st <= zlen rs * (32 + 32 * n))) ->
  NoDup d -> (forall c, In c d <-> In c (map k_chan (firstn 64 rs))) ->
  let f := mkFile (before ++ flat_map cor_bytes rs ++ t) (zlen before) in
  snd (frame_size read_cor is_cor st f) = Ok (32 + 32 * n) /\
  snd (cor_channel_count read_cor c_chan c_nchan st f) = zlen d * n /\
  snd (cor_frames_per_obs read_cor is_cor c_chan c_nchan st f) = Ok (zlen d * 32896).
Proof. exact C46_cor_description_partial_proof. Qed.
Print Assumptions C46_cor_description_partial.

Example C46_cor_description_example : exists st rs, cor_history st /\ rs <> [] /\
  Forall (fun r => cor_ok 33 r /\ unambiguous r) rs /\ Forall (fun r => k_id r = 2 \/ k_id r = 6) rs /\
  assumed_nchan st = 33 /\ NoDup [500; 533] /\
  (forall c, In c [500; 533] <-> In c (map k_chan (firstn 64 rs))).
Proof. exact C46_cor_description_example_proof. Qed.

(** C46: up to 2499 bytes before the first frame that never look like a sync word are skipped one by
    one, after any history, if at least one largest frame follows. *)
Theorem C46_garbage_skipped : forall n st rs before g t, In n cor_modes -> cor_history st ->
  Forall (fun r => cor_ok n r /\ unambiguous r) rs -> Forall (fun r => k_id r = 2 \/ k_id r = 6) rs ->
  0 < zlen g < 2500 -> 6176 <= zlen rs * (32 + 32 * n) ->
  let data := before ++ g ++ flat_map cor_bytes rs ++ t in bytes_ok data ->
  (forall i, 0 <= i < zlen g -> ztake 4 (zdrop (zlen before + i) data) <> sync_bytes) ->
  let f := mkFile data (zlen before) in
  exists st', frame_size read_cor is_cor st f = (st', f, Ok (32 + 32 * n)).
Proof. exact C46_garbage_skipped_proof. Qed.
Print Assumptions C46_garbage_skipped.

Example C46_garbage_skipped_example : exists rs, Forall (fun r => cor_ok 33 r /\ unambiguous r) rs /\ Forall (fun r => k_id r = 2 \/ k_id r = 6) rs /\
  6176 <= zlen rs * (32 + 32 * 33) /\
  (forall i, 0 <= i < 3 -> ztake 4 (zdrop (0 + i) ([1; 222; 192] ++ flat_map cor_bytes rs)) <> sync_bytes) /\
  snd (frame_size read_cor is_cor cor_fresh (mkFile ([1; 222; 192] ++ flat_map cor_bytes rs) 0)) = Ok 1088.
Proof. exact C46_garbage_skipped_example_proof. Qed.

(** C46 refuted: in a fresh process, a file of five 33-channel frames has "no"
    frame size, zero channels, and asking for the frames per observation divides by zero. *)
Theorem C46_short_file_refuted : exists r, cor_ok 33 r /\ unambiguous r /\ k_id r = 2 /\
  let f := mkFile (flat_map cor_bytes [r; r; r; r; r]) 0 in
  snd (frame_size read_cor is_cor cor_fresh f) = Raise RuntimeError /\
  snd (cor_channel_count read_cor c_chan c_nchan cor_fresh f) = 0 /\
  snd (cor_frames_per_obs read_cor is_cor c_chan c_nchan cor_fresh f) = Raise ZeroDivisionError.
Proof. exact C46_short_file_refuted_proof. Qed.
Print Assumptions C46_short_file_refuted.

(** C46 (partial): for a TBX stream as in C20 whose frames are marked as TBX,
    the frame size and the number of frames per observation (distinct first
    channels among the first 2500 frames) are right. *)
Theorem C46_tbx_description_partial : forall ns nc st rs before t d, tbx_mode ns nc -> tbx_history st ->
  Forall (tbx_ok ns nc) rs -> rs <> [] -> zlen t < 28 + 2 * ns * nc ->
  Forall (fun r => x_id r = 8 /\ x_chan r < 32768) rs ->
  assumed_bytes st <= zlen rs * (28 + 2 * ns * nc) + zlen t ->
  NoDup d -> (forall c, In c d <-> In c (map x_chan (firstn (Z.to_nat 2500) rs))) ->
  let f := mkFile (before ++ flat_map tbx_bytes rs ++ t) (zlen before) in
  snd (frame_size read_tbx is_tbx st f) = Ok (28 + 2 * ns * nc) /\
  snd (tbx_frames_per_obs read_tbx is_tbx t_chan st f) = zlen d.
Proof. exact C46_tbx_description_partial_proof. Qed.
Print Assumptions C46_tbx_description_partial.

Example C46_tbx_description_example : exists rs, tbx_mode 64 4 /\ Forall (tbx_ok 64 4) rs /\ rs <> [] /\
  Forall (fun r => x_id r = 8 /\ x_chan r < 32768) rs /\
  assumed_bytes tbx_fresh <= zlen rs * (28 + 2 * 64 * 4) + 0 /\
  NoDup [1200; 1204] /\ (forall c, In c [1200; 1204] <-> In c (map x_chan (firstn (Z.to_nat 2500) rs))).
Proof. exact C46_tbx_description_example_proof. Qed.

(** C46 refuted: one corrupted frame hides all the frames after it from the
    TBX count, because the loop does not move past it. *)
Theorem C46_tbx_stuck_refuted : exists r, tbx_ok 64 4 r /\ x_id r = 8 /\
  let data := repeat 0 (Z.to_nat 540) ++ flat_map tbx_bytes (repeat r 16) in
  snd (tbx_frames_per_obs read_tbx is_tbx t_chan tbx_fresh (mkFile data 0)) = 0.
Proof. exact C46_tbx_stuck_refuted_proof. Qed.
Print Assumptions C46_tbx_stuck_refuted.
