(** Property theorems (generated from P_DrspecT.v by tools/gen_theorems.py). *)
From Coq Require Import List ZArith Lia Bool.
From Verif Require Import M_Drspec S_Drspec S_DrspecRun P_Drx P_Drx2 P_Cor P_Drspec P_DrspecT.
Import ListNotations.
Open Scope Z_scope.
Ltac Zify.zify_post_hook ::= Z.div_mod_to_equations.

(** C23: a recorded spectrometer frame in one of the thirteen formats, found
    anywhere in a file, is returned with all its header fields and exactly its
    products; value [i] of product [b], tuning [t] is the recorded one divided by
    channels times fills; exactly the frame is consumed. *)
Theorem C23_drspec_decode : forall before after r, drs_ok r -> In (q_format r) drs_formats ->
  (forall t b, t = 0 \/ t = 1 -> In b (products (q_format r)) -> q_nfreq r * fills_of r t b < 2 ^ 32) ->
  let data := before ++ drs_bytes r ++ after in
  exists s, read_drspec (mkFile data (zlen before)) = (mkFile data (zlen before + drs_len r), Got s) /\
    zlen (drs_bytes r) = drs_len r /\ shows_drs r s.
Proof. exact C23_drspec_decode_proof. Qed.
Print Assumptions C23_drspec_decode.

Example C23_drspec_decode_example :
  let r := demo_drs 9 2 in
  drs_ok r /\ In (q_format r) drs_formats /\
  (forall t b, t = 0 \/ t = 1 -> In b (products (q_format r)) -> q_nfreq r * fills_of r t b < 2 ^ 32) /\
  drs_len r = 124 /\ products (q_format r) = [0; 3] /\
  spectrum r 0 3 1 = [CVal 2 2700; CVal 1002 2700; CVal 2002 2700].
Proof. exact C23_drspec_decode_example_proof. Qed.

(** A file of recorded frames is returned frame by frame, then EOFError. *)
Theorem C23_drspec_stream : forall before rs,
  Forall (fun r => drs_ok r /\
    (forall t b, t = 0 \/ t = 1 -> In b (products (q_format r)) -> q_nfreq r * fills_of r t b < 2 ^ 32) /\
    In (q_format r) drs_formats) rs ->
  let data := before ++ flat_map drs_bytes rs in
  exists l, drs_reads (1 + length rs) (mkFile data (zlen before)) = (mkFile data (zlen data), l, Some EOFError) /\
    Forall2 shows_drs rs l.
Proof. exact C23_drspec_stream_proof. Qed.
Print Assumptions C23_drspec_stream.

Example C23_drspec_stream_example :
  Forall (fun r => drs_ok r /\
    (forall t b, t = 0 \/ t = 1 -> In b (products (q_format r)) -> q_nfreq r * fills_of r t b < 2 ^ 32) /\
    In (q_format r) drs_formats) [demo_drs 2 1; demo_drs 240 4].
Proof. exact C23_drspec_stream_example_proof. Qed.

(** Any bytes: a frame of the announced size, EOFError at the end of the data,
    or SyncError without moving; never a change of the file. *)
Theorem C23_drspec_total : forall f f' r, bytes_ok (f_data f) -> 0 <= f_pos f <= zlen (f_data f) ->
  read_drspec f = (f', r) ->
  f_data f' = f_data f /\
  match r with
  | Got s => f_pos f' = f_pos f + 76 + 8 * pol_count 8 (s_format (sf_head s)) * s_nfreq (sf_head s) /\ f_pos f' <= zlen (f_data f)
  | BadSync loc => f' = f /\ loc = f_pos f
  | AtEOF => f_pos f' = zlen (f_data f)
  end.
Proof. exact C23_drspec_total_proof. Qed.
Print Assumptions C23_drspec_total.

Example C23_drspec_total_example :
  read_drspec (mkFile (repeat 0 100) 5) = (mkFile (repeat 0 100) 5, BadSync 5) /\
  read_drspec (mkFile (repeat 0 100) 25) = (mkFile (repeat 0 100) 100, AtEOF).
Proof. exact C23_drspec_total_example_proof. Qed.

(** Exactly which formats keep the decoder inside the data it has read: the
    thirteen formats and those announcing four products or more.  (Every other format
    byte makes it read outside the buffer.) *)
Theorem C23_drspec_in_bounds : forall h data, 0 <= s_format h < 256 -> 1 <= s_nfreq h ->
  zlen data = 2 * zlen (products (s_format h)) * s_nfreq h ->
  (Forall (Forall (fun c => c <> CWild)) (fst (drs_parse h data) ++ snd (drs_parse h data)) <->
   In (s_format h) drs_formats \/ 4 <= zlen (products (s_format h))).
Proof. exact C23_drspec_in_bounds_proof. Qed.
Print Assumptions C23_drspec_in_bounds.

Example C23_drspec_in_bounds_example :
  let h := drs_head (concat (drs_head_chunks (demo_drs 9 2))) in
  s_format h = 9 /\ s_nfreq h = 3 /\ zlen (drs_words (demo_drs 9 2)) = 2 * zlen (products 9) * 3 /\
  ~ In 3 drs_formats /\ zlen (products 3) = 2.
Proof. exact C23_drspec_in_bounds_example_proof. Qed.

(** So a frame with two products other than XX/YY, re/im XY or I/V makes the
    decoder read outside the frame's data. *)
Theorem C23_drspec_overread_refuted : exists r, drs_ok r /\
  match read_drspec (mkFile (drs_bytes r) 0) with
  | (_, Got s) => In CWild (flat_map (fun p => fst (snd p) ++ snd (snd p)) (sf_out s))
  | _ => False
  end.
Proof. exact C23_drspec_overread_refuted_proof. Qed.
Print Assumptions C23_drspec_overread_refuted.

(** A frame with four products of both kinds (XX, XY and I) stays within its data
    but shows XX under the name I. *)
Theorem C23_drspec_mixed_refuted : exists r s, drs_ok r /\
  read_drspec (mkFile (drs_bytes r) 0) = (mkFile (drs_bytes r) (drs_len r), Got s) /\
  products (q_format r) = [0; 1; 2; 4] /\
  znth (0, ([], [])) 3 (sf_out s) = (4, (spectrum r 0 0 0, spectrum r 1 0 0)) /\
  spectrum r 0 0 0 <> spectrum r 0 4 3.
Proof. exact C23_drspec_mixed_refuted_proof. Qed.
Print Assumptions C23_drspec_mixed_refuted.

(** The normalisation wraps at 2^32: with 4096 channels and 2^20 fills the
    spectrum is divided by zero. *)
Theorem C23_drspec_norm_refuted : exists h, s_nfreq h = 4096 /\ s_fills h = [2 ^ 20; 2 ^ 20; 2 ^ 20; 2 ^ 20] /\ s_format h = 1 /\
  forall data, zlen data = 8192 ->
    znth CZero 0 (znth [] 0 (fst (drs_parse h data))) = CVal (znth 0 0 data) 0.
Proof. exact C23_drspec_norm_refuted_proof. Qed.
Print Assumptions C23_drspec_norm_refuted.

(** The description functions report the frame at the current position and
    leave the position unchanged: frame size, products, transform length, windows per
    integration, linear or Stokes. *)
Theorem C23_drspec_describe : forall before after r, drs_ok r ->
  let f := mkFile (before ++ drs_bytes r ++ after) (zlen before) in
  drs_frame_size f = (f, Ok (zlen (drs_bytes r))) /\
  get_data_products f = (f, Ok (products (q_format r))) /\
  get_ffts_per_integration f = (f, Ok (q_nints r)) /\
  (In (q_format r) drs_formats -> get_transform_size f = (f, Ok (q_nfreq r)) /\
     exists b, get_is_linear f = (f, Ok b) /\ (b = true <-> Forall (fun p => p < 4) (products (q_format r)))).
Proof. exact C23_drspec_describe_proof. Qed.
Print Assumptions C23_drspec_describe.

Example C23_drspec_describe_example : drs_ok (demo_drs 240 4) /\ In (q_format (demo_drs 240 4)) drs_formats.
Proof. exact C23_drspec_describe_example_proof. Qed.
