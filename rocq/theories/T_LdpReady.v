(** Property theorems (generated from P_LdpReadyT.v by tools/gen_theorems.py). *)
From Coq Require Import List ZArith Bool Lia.
From Verif Require Import M_LdpReady S_Drx S_LdpReady P_Drx P_LdpReady LibBytes LibList P_LdpReadyT.
Import ListNotations.
Open Scope Z_scope.
Ltac Zify.zify_post_hook ::= Z.div_mod_to_equations.

(** C31: opening a DRX file of at least 32 frames, whatever bytes without a sync word come before the first
    and whatever comes after the last, leaves the reader on the first byte of the first frame. *)
Theorem C31_first_frame : forall junk r0 rs tail, opens drx_bytes well_formed_drx junk r0 rs tail -> 32 <= zlen (r0 :: rs) ->
  let data := junk ++ concat (map drx_bytes (r0 :: rs)) ++ tail in
  no_gap 4128 (zlen data) r0 rs [1; 2; 4; 8; 16] ->
  ready_drx (mkFile data 0) = (mkFile data (zlen junk), Ok tt).
Proof. exact C31_first_frame_proof. Qed.
Print Assumptions C31_first_frame.

(** C31: the same for DRX8. *)
Theorem C31_first_frame_drx8 : forall junk r0 rs tail, opens drx8_bytes well_formed_drx8 junk r0 rs tail -> 32 <= zlen (r0 :: rs) ->
  let data := junk ++ concat (map drx8_bytes (r0 :: rs)) ++ tail in
  no_gap 8224 (zlen data) r0 rs [1; 2; 4; 8; 16] ->
  ready_drx8 (mkFile data 0) = (mkFile data (zlen junk), Ok tt).
Proof. exact C31_first_frame_drx8_proof. Qed.
Print Assumptions C31_first_frame_drx8.

(** C31: with more than 300 s between the first frame and the one looked ahead to, reading starts at the
    latter; it is the first such checkpoint that counts. *)
Theorem C31_skips_old_data : forall junk r0 rs tail pre mb post d, opens drx_bytes well_formed_drx junk r0 rs tail ->
  let data := junk ++ concat (map drx_bytes (r0 :: rs)) ++ tail in
  [1; 2; 4; 8; 16] = pre ++ mb :: post -> no_gap 4128 (zlen data) r0 rs pre ->
  mb * 1048576 < zlen data -> ahead 4128 mb + 32 <= zlen (r0 :: rs) ->
  300 * 196000000 < sample_time (znth d (ahead 4128 mb) (r0 :: rs)) - sample_time r0 ->
  ready_drx (mkFile data 0) = (mkFile data (zlen junk + ahead 4128 mb * 4128), Ok tt).
Proof. exact C31_skips_old_data_proof. Qed.
Print Assumptions C31_skips_old_data.

(** C31: the same for DRX8. *)
Theorem C31_skips_old_data_drx8 : forall junk r0 rs tail pre mb post d, opens drx8_bytes well_formed_drx8 junk r0 rs tail ->
  let data := junk ++ concat (map drx8_bytes (r0 :: rs)) ++ tail in
  [1; 2; 4; 8; 16] = pre ++ mb :: post -> no_gap 8224 (zlen data) r0 rs pre ->
  mb * 1048576 < zlen data -> ahead 8224 mb + 32 <= zlen (r0 :: rs) ->
  300 * 196000000 < sample_time (znth d (ahead 8224 mb) (r0 :: rs)) - sample_time r0 ->
  ready_drx8 (mkFile data 0) = (mkFile data (zlen junk + ahead 8224 mb * 8224), Ok tt).
Proof. exact C31_skips_old_data_drx8_proof. Qed.
Print Assumptions C31_skips_old_data_drx8.

(** C31: a file without a sync word where a whole frame could start raises EOFError. *)
Theorem C31_no_data : forall data, bytes_ok data ->
  (forall i, 0 <= i -> i + 4128 <= zlen data -> ~ sync_at data i) -> snd (ready_drx (mkFile data 0)) = Raise EOFError.
Proof. exact C31_no_data_proof. Qed.
Print Assumptions C31_no_data.

(** C31: the same for DRX8. *)
Theorem C31_no_data_drx8 : forall data, bytes_ok data ->
  (forall i, 0 <= i -> i + 8224 <= zlen data -> ~ sync_at data i) -> snd (ready_drx8 (mkFile data 0)) = Raise EOFError.
Proof. exact C31_no_data_drx8_proof. Qed.
Print Assumptions C31_no_data_drx8.

(** C31: a file whose size is between a checkpoint and the end of the frame there cannot be opened. *)
Theorem C31_unlucky_size : forall junk r0 rs tail pre mb post, opens drx_bytes well_formed_drx junk r0 rs tail ->
  let data := junk ++ concat (map drx_bytes (r0 :: rs)) ++ tail in
  [1; 2; 4; 8; 16] = pre ++ mb :: post -> no_gap 4128 (zlen data) r0 rs pre ->
  mb * 1048576 < zlen data < zlen junk + (ahead 4128 mb + 1) * 4128 ->
  snd (ready_drx (mkFile data 0)) = Raise EOFError.
Proof. exact C31_unlucky_size_proof. Qed.
Print Assumptions C31_unlucky_size.

(** C31: the same for DRX8. *)
Theorem C31_unlucky_size_drx8 : forall junk r0 rs tail pre mb post, opens drx8_bytes well_formed_drx8 junk r0 rs tail ->
  let data := junk ++ concat (map drx8_bytes (r0 :: rs)) ++ tail in
  [1; 2; 4; 8; 16] = pre ++ mb :: post -> no_gap 8224 (zlen data) r0 rs pre ->
  mb * 1048576 < zlen data < zlen junk + (ahead 8224 mb + 1) * 8224 ->
  snd (ready_drx8 (mkFile data 0)) = Raise EOFError.
Proof. exact C31_unlucky_size_drx8_proof. Qed.
Print Assumptions C31_unlucky_size_drx8.

(** C31: a file with fewer than 32 whole frames cannot be opened. *)
Theorem C31_short_file : forall junk r0 rs tail, opens drx_bytes well_formed_drx junk r0 rs tail -> zlen tail < 4128 ->
  zlen (r0 :: rs) < 32 -> let data := junk ++ concat (map drx_bytes (r0 :: rs)) ++ tail in zlen data <= 1048576 ->
  snd (ready_drx (mkFile data 0)) = Raise EOFError.
Proof. exact C31_short_file_proof. Qed.
Print Assumptions C31_short_file.

Example C31_first_frame_example :
  let r0 := ex_r 61849368000000001 in let rs := ex_rs 299 0 in
  opens drx_bytes well_formed_drx [1; 2; 3; 4; 5] r0 rs [9; 9] /\ 32 <= zlen (r0 :: rs) /\
  1048576 < zlen ([1; 2; 3; 4; 5] ++ concat (map drx_bytes (r0 :: rs)) ++ [9; 9]) /\
  no_gap 4128 (zlen ([1; 2; 3; 4; 5] ++ concat (map drx_bytes (r0 :: rs)) ++ [9; 9])) r0 rs [1; 2; 4; 8; 16].
Proof. exact C31_first_frame_example_proof. Qed.

Example C31_skips_old_data_example :
  let r0 := ex_r 61849368000000001 in let rs := ex_rs 254 100 in
  opens drx_bytes well_formed_drx [1; 2; 3; 4; 5] r0 rs [9; 9] /\
  1048576 < zlen ([1; 2; 3; 4; 5] ++ concat (map drx_bytes (r0 :: rs)) ++ [9; 9]) /\ ahead 4128 1 + 32 <= zlen (r0 :: rs) /\
  forall d, 300 * 196000000 < sample_time (znth d (ahead 4128 1) (r0 :: rs)) - sample_time r0.
Proof. exact C31_skips_old_data_example_proof. Qed.

Example C31_no_data_example : bytes_ok (repeat 7 5000) /\ (forall i, 0 <= i -> i + 4128 <= zlen (repeat 7 5000) -> ~ sync_at (repeat 7 5000) i).
Proof. exact C31_no_data_example_proof. Qed.

(** Refutation: not every recording of 32 or more frames can be opened; one of exactly 255 frames raises
    EOFError. *)
Theorem C31_any_recording_refuted :
  ~ (forall junk r0 rs tail, opens drx_bytes well_formed_drx junk r0 rs tail -> 32 <= zlen (r0 :: rs) ->
       snd (ready_drx (mkFile (junk ++ concat (map drx_bytes (r0 :: rs)) ++ tail) 0)) = Ok tt).
Proof. exact C31_any_recording_refuted_proof. Qed.
Print Assumptions C31_any_recording_refuted.

Example C31_short_file_example :
  opens drx_bytes well_formed_drx [1; 2; 3; 4; 5] (ex_r 61849368000000001) (ex_rs 30 0) [9; 9] /\ zlen (ex_r 61849368000000001 :: ex_rs 30 0) = 31 /\
  zlen ([1; 2; 3; 4; 5] ++ concat (map drx_bytes (ex_r 61849368000000001 :: ex_rs 30 0)) ++ [9; 9]) <= 1048576.
Proof. exact C31_short_file_example_proof. Qed.

Theorem C31_header_in_junk_refuted :
  exists junk r0 rs, zlen junk = 32 /\ Forall well_formed_drx (r0 :: rs) /\ starts_data r0 /\ 32 <= zlen (r0 :: rs) /\
    (forall r, In r rs -> r = r0) /\
    ready_drx (mkFile (junk ++ concat (map drx_bytes (r0 :: rs))) 0) = (mkFile (junk ++ concat (map drx_bytes (r0 :: rs))) (zlen junk + 4128), Ok tt).
Proof. exact C31_header_in_junk_refuted_proof. Qed.
Print Assumptions C31_header_in_junk_refuted.
