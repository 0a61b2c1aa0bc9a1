(** Property theorems (generated from P_LdpAnyT.v by tools/gen_theorems.py). *)
From Coq Require Import List ZArith Bool Lia.
From Verif Require Import LibBytes M_LdpAny S_Drx S_Drspec S_Cor S_CorRun S_LdpReady S_LdpSpec S_LdpAny P_Drx P_Drspec P_LdpReady P_LdpReadyT P_LdpSpec P_LdpSpecT P_Cor P_Tbx P_CorDesc P_CorT P_LdpAny P_LdpAny2 P_LdpAny3 P_LdpAnyT.
Import ListNotations.
Open Scope Z_scope.

(** C75: a file that begins with at most 4127 bytes without a sync word and goes on with two DRX frames is opened as DRX,
    whatever follows and whatever was read before. *)
Theorem C75_drx : forall c t junk r1 r2 rest, well_formed_drx r1 -> well_formed_drx r2 ->
  let data := junk ++ drx_bytes r1 ++ drx_bytes r2 ++ rest in
  bytes_ok data -> zlen junk < 4128 -> no_sync junk (drx_bytes r1 ++ drx_bytes r2 ++ rest) ->
  lwa_data_file c t (mkFile data 0) = (c, t, mkFile data 0, Ok DRX).
Proof. exact C75_drx_proof. Qed.
Print Assumptions C75_drx.

(** C75: likewise with at most 8223 bytes and two DRX8 frames, if 4128 bytes into the first frame, in its data, there is no sync word. *)
Theorem C75_drx8 : forall c t junk r1 r2 rest, well_formed_drx8 r1 -> well_formed_drx8 r2 ->
  let data := junk ++ drx8_bytes r1 ++ drx8_bytes r2 ++ rest in
  bytes_ok data -> zlen junk < 8224 -> no_sync junk (drx8_bytes r1 ++ drx8_bytes r2 ++ rest) -> ~ sync_at data (zlen junk + 4128) ->
  lwa_data_file c t (mkFile data 0) = (c, t, mkFile data 0, Ok DRX8).
Proof. exact C75_drx8_proof. Qed.
Print Assumptions C75_drx8.

(** C75: a file of at least two DR spectrometer frames is opened as DRSpec if no DRX sync word is in its first 8224 bytes. *)
Theorem C75_drspec : forall c t r1 r2 rest, drs_ok r1 -> drs_ok r2 ->
  let data := drs_bytes r1 ++ drs_bytes r2 ++ rest in
  bytes_ok data -> (forall i, 0 <= i < 8224 -> ~ sync_at data i) ->
  lwa_data_file c t (mkFile data 0) = (c, t, mkFile data 0, Ok DRSpec).
Proof. exact C75_drspec_proof. Qed.
Print Assumptions C75_drspec.

(** C75: a file of at least 16448 bytes that begins with two TBX frames is opened as TBX, after any history, if no sync word is
    in its first 8229 bytes but where frames begin. *)
Theorem C75_tbx : forall c t ns nc r1 r2 rest, tbx_mode ns nc -> tbx_history t -> tbx_ok ns nc r1 -> tbx_ok ns nc r2 -> x_id r1 = 8 ->
  let data := tbx_bytes r1 ++ tbx_bytes r2 ++ rest in
  bytes_ok data -> 16448 <= zlen data -> no_stray (28 + 2 * ns * nc) 8229 data ->
  exists t', lwa_data_file c t (mkFile data 0) = (c, t', mkFile data 0, Ok TBX).
Proof. exact C75_tbx_proof. Qed.
Print Assumptions C75_tbx.

(** C75: likewise for COR, in a history that has not left the reader expecting fewer channels, if all time tags in the first 2500
    bytes are after 1993 (2^57 ticks). *)
Theorem C75_cor : forall c t n r1 r2 rest, In n cor_modes -> cor_history c -> n <= assumed_nchan c -> tbx_history t ->
  cor_ok n r1 -> unambiguous r1 -> cor_ok n r2 -> unambiguous r2 -> k_id r1 = 2 \/ k_id r1 = 6 ->
  let data := cor_bytes r1 ++ cor_bytes r2 ++ rest in
  bytes_ok data -> 16448 <= zlen data -> no_stray (32 + 32 * n) 8229 data ->
  (forall i, 0 <= i < 2500 -> i mod (32 + 32 * n) = 0 -> 2 ^ 57 <= be_val (slice (i + 16) 8 data)) ->
  exists c' t', lwa_data_file c t (mkFile data 0) = (c', t', mkFile data 0, Ok COR).
Proof. exact C75_cor_proof. Qed.
Print Assumptions C75_cor.

(** C75: whatever the file holds and whatever was read before, opening a file leaves its bytes alone; if a format is found, or none,
    the file is at its beginning again; a DRX file has two sync words one frame apart in the right place, a DRX8 file too, the other formats have
    their header at the first byte; the only other exception is OSError. *)
Theorem C75_answer : forall c t data c' t' f' r, cor_history c -> tbx_history t -> bytes_ok data ->
  lwa_data_file c t (mkFile data 0) = (c', t', f', r) ->
  f_data f' = data /\ ((exists m, r = Ok m) \/ r = Raise RuntimeError -> f_pos f' = 0) /\
  match r with
  | Ok DRX => exists i, 0 <= i < 4128 /\ i + 2 * 4128 <= zlen data /\ sync_at data i /\ sync_at data (i + 4128)
  | Ok DRX8 => exists i, 0 <= i < 8224 /\ i + 2 * 8224 <= zlen data /\ sync_at data i /\ sync_at data (i + 8224)
  | Ok DRSpec => header_at data 0
  | Ok TBX => tbx_at data 0
  | Ok COR => sync_at data 0
  | Raise e => e = RuntimeError \/ e = OSError
  end.
Proof. exact C75_answer_proof. Qed.
Print Assumptions C75_answer.

(** C75 refuted: a file that begins with a sync word, as those of all formats but DR spectrometer do, has none at byte 4128 and is shorter than
    16448 bytes is not recognised, whatever it holds; up to 30 TBX frames of 64 stands and 4 channels, or 15 COR frames of
    33 channels, or one DRX8 frame, are such a file. *)
Theorem C75_short_refuted : forall c t data, bytes_ok data -> sync_at data 0 -> ~ sync_at data 4128 -> 4128 <= zlen data < 16448 ->
  lwa_data_file c t (mkFile data 0) = (c, t, mkFile data 0, Raise RuntimeError).
Proof. exact C75_short_refuted_proof. Qed.
Print Assumptions C75_short_refuted.

(** C75 refuted: a DRX8 file whose first frame has the sync word where a DRX frame would end is opened as DRX. *)
Theorem C75_imitated_refuted : forall c t r1 r2 rest, well_formed_drx8 r1 -> well_formed_drx8 r2 ->
  let data := drx8_bytes r1 ++ drx8_bytes r2 ++ rest in
  bytes_ok data -> sync_at data 4128 -> lwa_data_file c t (mkFile data 0) = (c, t, mkFile data 0, Ok DRX).
Proof. exact C75_imitated_refuted_proof. Qed.
Print Assumptions C75_imitated_refuted.

(** C75 refuted: a TBX recording that starts within a frame, like one DRX copes with, makes the search step before the
    beginning of the file: OSError. *)
Theorem C75_damaged_start_refuted : forall c t ns nc junk r1 rest, tbx_mode ns nc -> tbx_history t -> tbx_ok ns nc r1 -> x_id r1 = 8 ->
  let data := junk ++ tbx_bytes r1 ++ rest in
  bytes_ok data -> 0 < zlen junk < 2500 -> no_sync junk (tbx_bytes r1 ++ rest) -> zlen junk + 16448 <= zlen data -> ~ header_at data 0 ->
  ~ sync_at data (zlen junk + 4128) -> ~ sync_at data (zlen junk + 8224) ->
  exists t', lwa_data_file c t (mkFile data 0) = (c, t', mkFile data 0, Raise OSError).
Proof. exact C75_damaged_start_refuted_proof. Qed.
Print Assumptions C75_damaged_start_refuted.

(** C75 refuted: a DR spectrometer recording with anything before its first frame is not opened as one, although DRSpecFile itself copes with that (C74). *)
Theorem C75_drspec_damaged_refuted : forall c t junk r0 rs c' t' f', cor_history c -> tbx_history t -> recording r0 rs ->
  let data := junk ++ flat_map drs_bytes (r0 :: rs) in
  bytes_ok data -> junk <> [] -> no_header junk (flat_map drs_bytes (r0 :: rs)) ->
  lwa_data_file c t (mkFile data 0) <> (c', t', f', Ok DRSpec).
Proof. exact C75_drspec_damaged_refuted_proof. Qed.
Print Assumptions C75_drspec_damaged_refuted.

Example C75_drx_example : let r := ex_r 61849368000000001 in well_formed_drx r /\ bytes_ok ([1; 2; 3; 4; 5] ++ drx_bytes r ++ drx_bytes r ++ [9; 9]) /\
  no_sync [1; 2; 3; 4; 5] (drx_bytes r ++ drx_bytes r ++ [9; 9]).
Proof. exact C75_drx_example_proof. Qed.

Example C75_drx8_example : let r := x8 (5, 6) in well_formed_drx8 r /\ bytes_ok ([1; 2; 3; 4; 5] ++ drx8_bytes r ++ drx8_bytes r ++ [9; 9]) /\
  no_sync [1; 2; 3; 4; 5] (drx8_bytes r ++ drx8_bytes r ++ [9; 9]) /\ ~ sync_at ([1; 2; 3; 4; 5] ++ drx8_bytes r ++ drx8_bytes r ++ [9; 9]) (5 + 4128).
Proof. exact C75_drx8_example_proof. Qed.

Example C75_drspec_example : let data := drs_bytes (dm 0) ++ drs_bytes (dm 1) ++ [7] in drs_ok (dm 0) /\ drs_ok (dm 1) /\ bytes_ok data /\ (forall i, 0 <= i < 8224 -> ~ sync_at data i).
Proof. exact C75_drspec_example_proof. Qed.

Example C75_tbx_example : let r := demo_tbx 64 4 1200 in let data := tbx_bytes r ++ tbx_bytes r ++ flat_map tbx_bytes (repeat r 29) in
  tbx_mode 64 4 /\ tbx_history tbx_fresh /\ tbx_ok 64 4 r /\ x_id r = 8 /\ bytes_ok data /\ 16448 <= zlen data /\ no_stray (28 + 2 * 64 * 4) 8229 data.
Proof. exact C75_tbx_example_proof. Qed.

Example C75_cor_example : let r := demo_cor 33 500 1 2 in let data := cor_bytes r ++ cor_bytes r ++ flat_map cor_bytes (repeat r 15) in
  In 33 cor_modes /\ cor_history cor_fresh /\ 33 <= assumed_nchan cor_fresh /\ cor_ok 33 r /\ unambiguous r /\ bytes_ok data /\ 16448 <= zlen data /\ no_stray (32 + 32 * 33) 8229 data /\
  (forall i, 0 <= i < 2500 -> i mod (32 + 32 * 33) = 0 -> 2 ^ 57 <= be_val (slice (i + 16) 8 data)).
Proof. exact C75_cor_example_proof. Qed.

Example C75_short_example : let data := flat_map tbx_bytes (repeat (demo_tbx 64 4 1200) 30) in
  tbx_ok 64 4 (demo_tbx 64 4 1200) /\ bytes_ok data /\ sync_at data 0 /\ ~ sync_at data 4128 /\ 4128 <= zlen data < 16448.
Proof. exact C75_short_example_proof. Qed.

Example C75_imitated_example : let r := x8 (-34, -64) in well_formed_drx8 r /\ bytes_ok (drx8_bytes r ++ drx8_bytes r ++ []) /\ sync_at (drx8_bytes r ++ drx8_bytes r ++ []) 4128.
Proof. exact C75_imitated_example_proof. Qed.

Example C75_damaged_start_example : let r := demo_tbx 64 4 1200 in let junk := repeat 7 100 in let rest := flat_map tbx_bytes (repeat r 31) in let data := junk ++ tbx_bytes r ++ rest in
  tbx_mode 64 4 /\ tbx_ok 64 4 r /\ x_id r = 8 /\ bytes_ok data /\ 0 < zlen junk < 2500 /\ no_sync junk (tbx_bytes r ++ rest) /\ zlen junk + 16448 <= zlen data /\ ~ header_at data 0 /\
  ~ sync_at data (zlen junk + 4128) /\ ~ sync_at data (zlen junk + 8224).
Proof. exact C75_damaged_start_example_proof. Qed.

Example C75_drspec_damaged_example : recording (dm 0) [dm 1; dm 2; dm 3; dm 4] /\ bytes_ok ([1; 2; 3; 4; 5] ++ flat_map drs_bytes [dm 0; dm 1; dm 2; dm 3; dm 4]) /\
  no_header [1; 2; 3; 4; 5] (flat_map drs_bytes [dm 0; dm 1; dm 2; dm 3; dm 4]).
Proof. exact C75_drspec_damaged_example_proof. Qed.
