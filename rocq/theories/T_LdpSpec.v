(** Property theorems (generated from P_LdpSpecT.v by tools/gen_theorems.py). *)
From Coq Require Import List ZArith Lia Bool QArith Qabs.
From Verif Require Import M_LdpSpec S_Drspec S_DrspecRun S_LdpSpec P_Drx P_Drx2 P_Cor P_Drspec P_DrspecT P_LdpReady P_LdpSpec P_LdpSpec2 P_Num LibBytes LibList P_LdpSpecT.
Import ListNotations.
Open Scope Z_scope.
Ltac Zify.zify_post_hook ::= Z.div_mod_to_equations.

(** C74: opening a recording of two frames or more, after any bytes without a frame header, and any sequence of
    reads: every frame is returned once, in order, each spectrum in the row of its tuning and product,
    with the time of the first frame; then EOFError. *)
Theorem C74_spec_reads : forall junk r0 rs ign ns, recording r0 rs -> rs <> [] ->
  bytes_ok junk -> no_header junk (flat_map drs_bytes (r0 :: rs)) ->
  ign = true \/ no_jump (frame_tint r0) (r0 :: rs) -> Forall (fun n => 0 <= n) ns ->
  exists s, spec_open (junk ++ flat_map drs_bytes (r0 :: rs)) = Ok s /\ spec_reads ign ns s = returned r0 ns (r0 :: rs).
Proof. exact C74_spec_reads_proof. Qed.
Print Assumptions C74_spec_reads.

Example C74_spec_reads_example :
  recording (dm 0) [dm 1; dm 2; dm 3; dm 4] /\ no_header [1; 2; 3; 4; 5] (flat_map drs_bytes [dm 0; dm 1; dm 2; dm 3; dm 4]) /\
  no_jump (frame_tint (dm 0)) [dm 0; dm 1; dm 2; dm 3; dm 4] /\
  map (fun o => match o with Ok (n, t, a) => Some (n, t, length a) | Raise _ => None end) (returned (dm 0) [2; 0; 7; 3] [dm 0; dm 1; dm 2; dm 3; dm 4]) =
    [Some (2%nat, Some 286699999999999993, 4%nat); Some (1%nat, Some 286700000000368633, 4%nat); Some (2%nat, Some 286700000000552953, 4%nat); None].
Proof. exact C74_spec_reads_example_proof. Qed.

(** C74: with frames one integration time apart, offset moves by the nearest whole number of integrations, forward or
    back, says by how much, and the next reads return the frames from there. *)
Theorem C74_spec_offset : forall junk r0 rs ign ns o1 o2 fuel, recording r0 rs -> rs <> [] ->
  bytes_ok junk -> no_header junk (flat_map drs_bytes (r0 :: rs)) ->
  (forall j, 0 <= j < zlen (r0 :: rs) -> frame_time (znth r0 j (r0 :: rs)) = frame_time r0 + j * frame_tint r0) ->
  let k1 := py_round (o1 / inject_Z (frame_tint r0)) in
  let k2 := py_round (o2 / inject_Z (frame_tint r0)) in
  0 <= k1 < zlen (r0 :: rs) -> 0 <= k1 + k2 < zlen (r0 :: rs) -> Forall (fun n => 0 <= n) ns ->
  exists s s1 s2, spec_open (junk ++ flat_map drs_bytes (r0 :: rs)) = Ok s /\
    spec_offset (S fuel) o1 s = (s1, Ok (k1 * frame_tint r0, true)) /\
    spec_offset (S fuel) o2 s1 = (s2, Ok (k2 * frame_tint r0, true)) /\
    spec_reads ign ns s2 = returned r0 ns (skipn (Z.to_nat (k1 + k2)) (r0 :: rs)).
Proof. exact C74_spec_offset_proof. Qed.
Print Assumptions C74_spec_offset.

Example C74_spec_offset_example :
  (forall j, 0 <= j < zlen [dm 0; dm 1; dm 2; dm 3; dm 4] -> frame_time (znth (dm 0) j [dm 0; dm 1; dm 2; dm 3; dm 4]) = frame_time (dm 0) + j * frame_tint (dm 0)) /\
  py_round (inject_Z 500000 / inject_Z (frame_tint (dm 0))) = 3 /\ py_round (inject_Z (-200000) / inject_Z (frame_tint (dm 0))) = -1.
Proof. exact C74_spec_offset_example_proof. Qed.

(** C74: whatever the file holds, an offset that returns without giving up read a frame whose time is the returned offset
    from the starting frame, within one of that frame's integration times of the offset asked for; the
    file is positioned on it if it has the described size. *)
Theorem C74_spec_offset_near : forall fuel o s s' d, spec_offset fuel o s = (s', Ok (d, true)) ->
  exists x0 x g f1 l, snd (read_drspec (so_fh s)) = Got x0 /\ read_drspec g = (f1, Got x) /\
    d = (s_tag (sf_head x) - s_toff (sf_head x)) - (s_tag (sf_head x0) - s_toff (sf_head x0)) /\
    transform_size x = Ok l /\ (Qabs (inject_Z d - o) <= inject_Z (Z.abs (s_nints (sf_head x) * l * s_dec (sf_head x))))%Q /\
    exists f2, f_seek (- sd_size (so_desc s)) 1 f1 = (f2, None) /\ so_fh s' = fst (spec_describe f2) /\ so_tag s' = None.
Proof. exact C74_spec_offset_near_proof. Qed.
Print Assumptions C74_spec_offset_near.

(** C74 refuted: at a frame with a damaged header, reading stops moving: every further read returns nothing
    (duration 0, no time, zeros) and never raises, whatever follows in the file. *)
Theorem C74_spec_damaged_refuted : forall junk r0 rs bad ign, recording r0 rs -> rs <> [] ->
  bytes_ok junk -> bytes_ok bad -> no_header junk (flat_map drs_bytes (r0 :: rs) ++ bad) ->
  ign = true \/ no_jump (frame_tint r0) (r0 :: rs) -> 76 <= zlen bad -> ~ header_at bad 0 ->
  exists s s1, spec_open (junk ++ flat_map drs_bytes (r0 :: rs) ++ bad) = Ok s /\
    spec_read ign (zlen (r0 :: rs)) s = (s1, Ok (length (r0 :: rs), Some (frame_time r0), spectra (q_format r0) (q_nfreq r0) (length (r0 :: rs)) (r0 :: rs))) /\
    forall ns, Forall (fun n => 1 <= n) ns ->
      spec_reads ign ns s1 = map (fun n => Ok (0%nat, None, spectra (q_format r0) (q_nfreq r0) (Z.to_nat n) [])) ns.
Proof. exact C74_spec_damaged_refuted_proof. Qed.
Print Assumptions C74_spec_damaged_refuted.

Example C74_spec_damaged_example : 76 <= zlen (repeat 0 124) /\ ~ header_at (repeat 0 124) 0 /\ recording (dm 0) [dm 1; dm 2; dm 3; dm 4] /\
  no_header [1; 2; 3; 4; 5] (flat_map drs_bytes [dm 0; dm 1; dm 2; dm 3; dm 4] ++ repeat 0 124).
Proof. exact C74_spec_damaged_example_proof. Qed.

(** C74 refuted: after a jump in time by more than 1.001 integration times nothing can be read any more: each read raises
    RuntimeError and uses up one frame, although the frames after the jump are in step. *)
Theorem C74_spec_gap_refuted : forall junk r0 rs more ns, recording r0 (rs ++ more) -> rs <> [] ->
  bytes_ok junk -> no_header junk (flat_map drs_bytes (r0 :: rs ++ more)) -> no_jump (frame_tint r0) (r0 :: rs) ->
  Forall (fun r => 1001 * frame_tint r0 < 1000 * (frame_time r - frame_time (last rs r0))) more -> Forall (fun n => 0 <= n) ns ->
  exists s, spec_open (junk ++ flat_map drs_bytes (r0 :: rs ++ more)) = Ok s /\
    spec_reads false (zlen (r0 :: rs) :: ns) s =
    Ok (length (r0 :: rs), Some (frame_time r0), spectra (q_format r0) (q_nfreq r0) (length (r0 :: rs)) (r0 :: rs)) ::
    map (fun k => if (k <? length more)%nat then Raise RuntimeError else Raise EOFError) (seq 0 (length ns)).
Proof. exact C74_spec_gap_refuted_proof. Qed.
Print Assumptions C74_spec_gap_refuted.

Example C74_spec_gap_example : recording (dm 0) ([dm 1; dm 2] ++ [dm 5; dm 6]) /\ no_header [1; 2; 3; 4; 5] (flat_map drs_bytes [dm 0; dm 1; dm 2; dm 5; dm 6]) /\
  no_jump (frame_tint (dm 0)) [dm 0; dm 1; dm 2] /\
  Forall (fun r => 1001 * frame_tint (dm 0) < 1000 * (frame_time r - frame_time (last [dm 1; dm 2] (dm 0)))) [dm 5; dm 6].
Proof. exact C74_spec_gap_example_proof. Qed.

(** C74 refuted: a recording with a single frame cannot be opened. *)
Theorem C74_spec_single_refuted : forall junk r0, recording r0 [] -> bytes_ok junk -> no_header junk (drs_bytes r0) ->
  spec_open (junk ++ drs_bytes r0) = Raise EOFError.
Proof. exact C74_spec_single_refuted_proof. Qed.
Print Assumptions C74_spec_single_refuted.

Example C74_spec_single_example : recording (dm 0) [] /\ no_header [1; 2; 3; 4; 5] (drs_bytes (dm 0)).
Proof. exact C74_spec_single_example_proof. Qed.

(** C74 refuted: when the last frame is incomplete, a read that starts there returns nothing (duration 0, no time, zeros)
    instead of EOFError; the read after it raises EOFError. *)
Theorem C74_spec_cut_refuted : forall junk r0 rs r cut rest ign n ns, recording r0 rs -> rs <> [] ->
  bytes_ok junk -> drs_ok r -> drs_bytes r = cut ++ rest -> cut <> [] -> rest <> [] -> no_header junk (flat_map drs_bytes (r0 :: rs) ++ cut) ->
  ign = true \/ no_jump (frame_tint r0) (r0 :: rs) -> 0 <= n -> Forall (fun n => 0 <= n) ns ->
  exists s, spec_open (junk ++ flat_map drs_bytes (r0 :: rs) ++ cut) = Ok s /\
    spec_reads ign (zlen (r0 :: rs) :: n :: ns) s =
    Ok (length (r0 :: rs), Some (frame_time r0), spectra (q_format r0) (q_nfreq r0) (length (r0 :: rs)) (r0 :: rs)) ::
    Ok (0%nat, None, spectra (q_format r0) (q_nfreq r0) (asked n) []) :: map (fun _ => Raise EOFError) ns.
Proof. exact C74_spec_cut_refuted_proof. Qed.
Print Assumptions C74_spec_cut_refuted.

Example C74_spec_cut_example : exists rest, drs_bytes (dm 5) = ztake 100 (drs_bytes (dm 5)) ++ rest /\ ztake 100 (drs_bytes (dm 5)) <> [] /\ rest <> [].
Proof. exact C74_spec_cut_example_proof. Qed.

(** C74 refuted: a step back in time, by any amount, passes unnoticed: the frames come out as if in order. *)
Theorem C74_spec_backwards_refuted : exists r0 rs, recording r0 rs /\ frame_time (last rs r0) < frame_time r0 - 10 ^ 12 /\
  forall ns, Forall (fun n => 0 <= n) ns -> exists s, spec_open (flat_map drs_bytes (r0 :: rs)) = Ok s /\ spec_reads false ns s = returned r0 ns (r0 :: rs).
Proof. exact C74_spec_backwards_refuted_proof. Qed.
Print Assumptions C74_spec_backwards_refuted.

(** C74: a frame without one of the products of the recording fills that product's row with NaN, for that frame, in its tuning. *)
Theorem C74_spec_missing_product : forall d x rows j, frame_rows d x = Ok rows -> 0 <= j < zlen (sd_prods d) ->
  (forall v, ~ In (znth 0 j (sd_prods d), v) (sf_out x)) ->
  nth (Z.to_nat j) rows [] = repeat SNan (Z.to_nat (sd_lfft d)) /\
  nth (Z.to_nat j + length (sd_prods d)) rows [] = repeat SNan (Z.to_nat (sd_lfft d)).
Proof. exact C74_spec_missing_product_proof. Qed.
Print Assumptions C74_spec_missing_product.

(** Of two products the frame has the second only. *)
Example C74_spec_missing_product_example :
  let x := mkSF (drs_head []) [(8, ([CZero; CZero], [CZero; CZero]))] in
  exists rows, frame_rows (mkSD 100 10 2 [1; 8]) x = Ok rows /\ length rows = 4%nat /\ nth 0 rows [] = [SNan; SNan] /\ nth 3 rows [] = [SCell CZero; SCell CZero] /\
    forall v, ~ In (znth 0 0 [1; 8], v) (sf_out x).
Proof. exact C74_spec_missing_product_example_proof. Qed.
