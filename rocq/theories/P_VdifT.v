(** Final forms of the VDIF properties (C21, C22, C47, C49). *)
From Coq Require Import List ZArith Bool Lia QArith.
From Verif Require Import M_Buffer M_BufferModes P_BufferModes M_Vdif S_Vdif S_VdifRun P_Drx P_Drx2 P_Vdif P_Vdif2 P_Vdif3.
Import ListNotations.
Open Scope Z_scope.
Ltac Zify.zify_post_hook ::= Z.div_mod_to_equations.

(** A complex 2-channel 4-bit frame, a real 8-channel 1-bit legacy frame and a short real 8-bit one. *)
Definition demo_vdif (t s k : Z) : vrec :=
  mkVrec false false s 41 k 1 1 19283 t 4 true (2 ^ 24 + 19600, 7, 8, 9)
    [0; 1; 2; 3; 4; 5; 6; 7; 8; 9; 10; 11; 12; 13; 14; 15].
Definition demo_legacy : vrec :=
  mkVrec true true 12345 3 9 0 3 5 1023 1 false (0, 0, 0, 0)
    (map (fun i => i * i mod 3 mod 2) (zseq 0 64)).
Definition demo_small (t s k : Z) : vrec :=
  mkVrec false false s 41 k 1 0 7 t 8 false (0, 0, 0, 0) [1; 2; 3; 4; 5; 6; 7; 255].
Ltac finite := cbn - [Z.pow Z.mul Z.div Z.modulo]; repeat apply Forall_cons; try apply Forall_nil; vm_compute; intuition congruence.
Lemma demo_vdif_ok : forall t s k, 0 <= t < 1024 -> 0 <= s < 2 ^ 30 -> 0 <= k < 2 ^ 24 -> vdif_ok (demo_vdif t s k).
Proof.
  intros t s k Ht Hs Hk. unfold vdif_ok, demo_vdif, ext_ok, frame_len, head_len, payload_len, parts.
  cbn [r_secs r_epoch r_frame r_version r_lognchan r_station r_thread r_bits r_ext r_levels r_complex r_legacy r_invalid].
  repeat split; try lia; try (vm_compute; congruence); try discriminate.
  - cbn; auto.
  - finite.
Qed.
Lemma demo_small_ok : forall t s k, 0 <= t < 1024 -> 0 <= s < 2 ^ 30 -> 0 <= k < 2 ^ 24 -> vdif_ok (demo_small t s k).
Proof.
  intros t s k Ht Hs Hk. unfold vdif_ok, demo_small, ext_ok, frame_len, head_len, payload_len, parts.
  cbn [r_secs r_epoch r_frame r_version r_lognchan r_station r_thread r_bits r_ext r_levels r_complex r_legacy r_invalid].
  repeat split; try lia; try (vm_compute; congruence); try discriminate.
  - cbn; auto 6.
  - finite.
Qed.
Lemma demo_legacy_ok : vdif_ok demo_legacy.
Proof.
  unfold vdif_ok. repeat split; try (vm_compute; congruence).
  - cbn; auto.
  - apply Forall_forall. intros x Hx. unfold demo_legacy in Hx. cbn [r_levels] in Hx. apply in_map_iff in Hx.
    destruct Hx as (i & <- & _). change (2 ^ r_bits demo_legacy) with 2. apply Z.mod_pos_bound. lia.
Qed.

(** C21: a recorded frame (any bit depth 1/2/4/8, any number of channels, real
    or complex, legacy or not) found anywhere in a file is returned with every
    header field as recorded, and with the recorded samples, by channel and in
    time order; exactly the frame is consumed.  [lut] is the level table:
    read_frame has [lut_f32], read_frame_i8 [lut_i8]. *)
Lemma C21_vdif_decode_proof : forall V (lut : Z -> Z -> V) before after r, vdif_ok r ->
  let data := before ++ vdif_bytes r ++ after in
  exists h x, read_vdif lut (mkFile data (zlen before)) = (mkFile data (zlen before + frame_len r), VGot (h, x)) /\
    zlen (vdif_bytes r) = frame_len r /\ shows lut r h x.
Proof.
  intros V lut before after r H data. destruct (read_vdif_ok lut before after r H) as (h & x & E & S1).
  exists h, x. split; [exact E|]. split; [apply vdif_bytes_zlen; auto|exact S1].
Qed.
(** Bytes of a frame, and what the reader makes of it. *)
Lemma C21_vdif_decode_example_proof :
  vdif_ok (demo_vdif 3 1000000 77) /\ vdif_ok demo_legacy /\
  vdif_bytes (demo_vdif 3 1000000 77) =
    [64; 66; 15; 0;  77; 0; 0; 41;  5; 0; 0; 33;  83; 75; 3; 140;  144; 76; 0; 1;  7; 0; 0; 0;  8; 0; 0; 0;  9; 0; 0; 0;
     16; 50; 84; 118; 152; 186; 220; 254] /\
  (let f := mkFile ([1; 2; 3] ++ vdif_bytes (demo_vdif 3 1000000 77) ++ [4]) 3 in
   read_vdif lut_i8 f =
    (mkFile (f_data f) 43, VGot (mkVH 0 0 1000000 41 77 1 2 5 1 4 3 19283 16796816 7 8 9,
       Complex [[(-8, -7); (-4, -3); (0, 1); (4, 5)]; [(-6, -5); (-2, -1); (2, 3); (6, 7)]]))).
Proof.
  split; [apply demo_vdif_ok; lia|]. split; [apply demo_legacy_ok|]. split; vm_compute; reflexivity.
Qed.

(** The levels of read_frame: symmetric about zero for 1, 2 and 8 bits, proportional to l - 8 for 4 bits, and rising
    with the code for all. *)
Lemma C21_vdif_levels_proof : forall bits l, In bits [1; 2; 4; 8] -> 0 <= l < 2 ^ bits ->
  (bits <> 4 -> (lut_f32 bits (2 ^ bits - 1 - l) == - lut_f32 bits l)%Q) /\
  (bits = 4 -> (lut_f32 bits l * (295 # 100) == inject_Z (l - 8))%Q) /\
  (0 < l -> (lut_f32 bits (l - 1) < lut_f32 bits l)%Q) /\
  (bits = 8 -> (lut_f32 bits l - lut_f32 bits 0 == inject_Z l / 128)%Q).
Proof.
  intros bits l [<- | [<- | [<- | [<- | []]]]] H.
  - change (2 ^ 1) with 2 in *. assert (C : l = 0 \/ l = 1) by lia. destruct C as [-> | ->]; (split; [intro; reflexivity|split; [intro; lia|split; [intro; try lia; reflexivity|lia]]]).
  - change (2 ^ 2) with 4 in *. assert (C : l = 0 \/ l = 1 \/ l = 2 \/ l = 3) by lia. destruct C as [-> | [-> | [-> | ->]]]; (split; [intro; reflexivity|split; [intro; lia|split; [intro; try lia; reflexivity|lia]]]).
  - split; [lia|]. split; [|split; [|lia]].
    + intros _. unfold lut_f32. cbn [Z.eqb Pos.eqb]. field.
    + intros _. unfold lut_f32. cbn [Z.eqb Pos.eqb]. unfold Qdiv. apply Qmult_lt_compat_r; [reflexivity|]. rewrite <- Zlt_Qlt. lia.
  - change (2 ^ 8) with 256 in *. split; [|split; [lia|split]].
    + intros _. unfold lut_f32, Qeq. cbn [Z.eqb Pos.eqb Qopp Qnum Qden]. lia.
    + intros _. unfold lut_f32, Qlt. cbn [Z.eqb Pos.eqb Qnum Qden]. lia.
    + intros _. unfold lut_f32, Qeq. cbn -[Z.mul Z.add Z.sub Z.opp]. lia.
Qed.
Lemma C21_vdif_levels_example_proof : (lut_f32 8 0 == -(255 # 256))%Q /\ (lut_f32 8 255 == 255 # 256)%Q /\ (lut_f32 4 15 == 7 / (295 # 100))%Q.
Proof. repeat split; vm_compute; reflexivity. Qed.

(** A file that is a sequence of recorded frames (of any shapes) is returned
    frame by frame, in order, and then EOFError is raised. *)
Lemma C21_vdif_stream_proof : forall V (lut : Z -> Z -> V) before rs, Forall vdif_ok rs ->
  let data := before ++ flat_map vdif_bytes rs in
  exists l, vreads (read_vdif lut) (1 + length rs) (mkFile data (zlen before)) =
      (mkFile data (zlen data), l, Some EOFError) /\
    Forall2 (fun r hx => shows lut r (fst hx) (snd hx)) rs l.
Proof. intros V lut before rs H. apply (vreads_stream lut rs before 1 H). Qed.
Lemma C21_vdif_stream_example_proof :
  Forall vdif_ok [demo_vdif 3 1000000 77; demo_legacy; demo_vdif 4 0 0].
Proof.
  repeat apply Forall_cons; try apply Forall_nil; try apply demo_legacy_ok; apply demo_vdif_ok; lia.
Qed.

(** Any bytes at all: read_frame returns a frame of the length its header
    announces, or raises EOFError at the end of the data, or SyncError without
    moving, or RuntimeError/MemoryError for an impossible sample format, having
    moved forward; the file is never changed nor the position moved outside it. *)
Lemma C21_vdif_total_proof : forall V (lut : Z -> Z -> V) f f' r, 0 <= f_pos f <= zlen (f_data f) ->
  read_vdif lut f = (f', r) ->
  f_data f' = f_data f /\
  match r with
  | VGot (h, _) => f_pos f' = f_pos f + 8 * h_length h /\ 16 <= 8 * h_length h /\ f_pos f' <= zlen (f_data f)
  | VSync loc => f' = f /\ loc = f_pos f
  | VEof => f_pos f' = zlen (f_data f)
  | VExc e => (e = RuntimeError \/ e = MemoryError) /\ f_pos f + 16 <= f_pos f' <= zlen (f_data f)
  end.
Proof. exact read_vdif_total. Qed.
(** The four kinds of failure do occur. *)
Lemma C21_vdif_total_example_proof :
  let z16 := repeat 0 16 in
  read_vdif lut_i8 (mkFile z16 0) = (mkFile z16 0, VSync 0) /\
  read_vdif lut_i8 (mkFile z16 1) = (mkFile z16 16, VEof) /\
  (let d := [0; 0; 0; 64; 0; 0; 0; 0; 3; 0; 0; 0; 0; 0; 0; 8] ++ repeat 0 8 in      (* 3 bits per sample *)
   read_vdif lut_i8 (mkFile d 0) = (mkFile d 24, VExc RuntimeError)) /\
  (let d := [0; 0; 0; 64; 0; 0; 0; 0; 3; 0; 0; 4; 0; 0; 0; 28] ++ repeat 0 8 in     (* 16 channels, 8 samples *)
   read_vdif lut_i8 (mkFile d 0) = (mkFile d 24, VExc MemoryError)).
Proof. vm_compute. auto. Qed.

Lemma one_channel : forall (A : Type) (d : A) (l : list A) (rows : list (list A)), by_channel 1 l rows -> rows = [l].
Proof.
  intros A d l rows (HL & H).
  assert (E : exists row, rows = [row]).
  { unfold zlen in HL. destruct rows as [|row [|? ?]]; cbn in HL; [lia| |lia]. exists row. reflexivity. }
  destruct E as [row ->]. destruct (H d 0 ltac:(lia)) as [L1 L2]. change (znth [] 0 [row]) with row in *.
  rewrite Z.div_1_r in *. f_equal. apply (znth_ext d); auto.
  intros i Hi. rewrite L2 by lia. f_equal. lia.
Qed.

Lemma biased_in_range : forall bits d, bits4 bits ->
  Forall (fun v => - 2 ^ (bits - 1) <= v < 2 ^ (bits - 1)) (interlaced d) ->
  biased bits d = map (fun v => v + 2 ^ (bits - 1)) (interlaced d).
Proof.
  intros bits d Hb H. unfold biased. apply map_ext_in. intros v Hv. rewrite Forall_forall in H. apply biased_value; auto.
Qed.

Lemma complex_of_flat : forall A B (f : A -> B) (g h : Q * Q -> A) (l : list (Q * Q)),
  complex_of (map f (flat_map (fun c => [g c; h c]) l)) = map (fun c => (f (g c), f (h c))) l.
Proof. induction l as [|c l IH]; [reflexivity|]. cbn [flat_map map app complex_of]. f_equal. exact IH. Qed.

(** C22: a frame written with 1, 2, 4 or 8 bits, real or complex, whose
    samples (truncated toward zero) are in range and fill whole 8-byte units, reads back,
    wherever it is in the file, with the same time, frame number, station, bit depth, sample
    rate (kHz) and samples.  (The version field comes back as 2 and the thread as 0.) *)
Lemma C22_vdif_write_read_proof : forall V (lut : Z -> Z -> V) before after bits stand secs epoch frame khz d,
  In bits [1; 2; 4; 8] ->
  0 <= stand < 2 ^ 16 -> 0 <= secs < 2 ^ 30 -> 0 <= epoch < 2 ^ 6 -> 0 <= frame < 2 ^ 24 -> 0 <= khz < 2 ^ 23 ->
  Forall (fun v => - 2 ^ (bits - 1) <= v < 2 ^ (bits - 1)) (interlaced d) ->
  zlen (interlaced d) * bits mod 64 = 0 -> 32 + zlen (interlaced d) * bits / 8 < 2 ^ 27 ->
  exists bytes h, write_vdif bits stand secs epoch frame khz d = Ok bytes /\
    zlen bytes = 32 + zlen (interlaced d) * bits / 8 /\
    (let data := before ++ bytes ++ after in
     read_vdif lut (mkFile data (zlen before)) =
       (mkFile data (zlen before + zlen bytes), VGot (h, expect lut bits d))) /\
    h_secs h = secs /\ h_epoch h = epoch /\ h_frame h = frame /\ h_station h = stand /\ h_bits h = bits /\
    h_complex h = (if w_isreal d then 0 else 1) /\ h_nchan h = 1 /\ 8 * h_length h = zlen bytes /\
    h_invalid h = 0 /\ h_legacy h = 0 /\ h_thread h = 0 /\ h_version h = 2 /\
    user_rate (h_ext1 h) = Ok (Some (khz, false)).
Proof.
  intros V lut before after bits stand secs epoch frame khz d Hb H1 H2 H3 H4 H5 HF Hm HL.
  set (r := written bits stand secs epoch frame khz d).
  assert (FL : frame_len r = 32 + zlen (interlaced d) * bits / 8).
  { unfold frame_len, head_len, payload_len, r, written. cbn [r_legacy r_bits r_levels]. rewrite zlen_biased. reflexivity. }
  assert (W : vdif_ok r).
  { unfold vdif_ok. rewrite FL. unfold r, written, ext_ok, parts.
    cbn [r_secs r_epoch r_frame r_version r_lognchan r_station r_thread r_bits r_ext r_levels r_complex r_legacy r_invalid].
    rewrite zlen_biased. change (2 ^ 23) with 8388608 in H5. change (2 ^ 24) with 16777216. change (2 ^ 32) with 4294967296.
    repeat split; try lia; try discriminate; try (apply biased_range; auto); auto.
    destruct d as [l|l]; cbn [w_isreal negb]; [change (1 * 2 ^ 0) with 1; apply Z.mod_1_r|].
    change (2 * 2 ^ 0) with 2. cbn [interlaced]. clear. induction l as [|c l IH]; [reflexivity|].
    cbn [flat_map app]. rewrite !zlen_cons. lia. }
  destruct (read_vdif_ok lut before after r W) as (h & x & E & SH & SX).
  exists (vdif_bytes r), h. rewrite (vdif_bytes_zlen r W), FL.
  split; [apply write_vdif_eq; auto; change (2 ^ 23) with 8388608 in H5; change (2 ^ 24) with 16777216; lia|].
  split; [reflexivity|]. split.
  - cbv zeta. cbv zeta in E. rewrite E, FL. do 3 f_equal. unfold expect.
    destruct x as [rows|rows], SX as [SC SX]; unfold r, written in SC, SX; cbn [r_complex r_lognchan r_bits r_levels] in SC, SX;
      change (2 ^ 0) with 1 in SX; rewrite biased_in_range in SX by auto; destruct d as [l|l]; cbn [w_isreal negb] in SC; try discriminate.
    + f_equal. cbn [interlaced] in SX. rewrite !map_map in SX. apply (one_channel _ (lut 0 0)) in SX. exact SX.
    + f_equal. cbn [interlaced] in SX. rewrite map_map, complex_of_flat in SX. apply (one_channel _ (lut 0 0, lut 0 0)) in SX. exact SX.
  - rewrite SH. cbn [h_secs h_epoch h_frame h_station h_bits h_complex h_nchan h_length h_invalid h_legacy h_thread h_version h_ext1].
    rewrite FL. destruct (frame_len_units r W) as [U _]. rewrite FL in U.
    unfold r, written. cbn [r_secs r_epoch r_frame r_version r_lognchan r_station r_thread r_bits r_ext r_complex r_legacy r_invalid b2z fst snd].
    do 5 (split; [reflexivity|]). split; [destruct d; reflexivity|]. split; [reflexivity|]. split; [lia|].
    do 4 (split; [reflexivity|]). unfold user_rate.
    assert (EA : Z.land (Z.shiftr (khz + 2 ^ 24) 24) 255 = 1).
    { rewrite Z.shiftr_div_pow2 by lia. change (2 ^ 23) with 8388608 in H5. change (2 ^ 24) with 16777216.
      replace ((khz + 16777216) / 16777216) with 1 by lia. reflexivity. }
    rewrite EA. cbn [Z.eqb orb Pos.eqb].
    change (2 ^ 23 - 1) with (Z.ones 23). rewrite Z.land_ones by lia. change (2 ^ 23) with 8388608 in *. change (2 ^ 24) with 16777216.
    rewrite Z.shiftr_div_pow2 by lia. change (2 ^ 23) with 8388608.
    replace ((khz + 16777216) mod 8388608) with khz by lia. replace ((khz + 16777216) / 8388608) with 2 by lia. reflexivity.
Qed.
Lemma C22_vdif_write_read_example_proof :
  let d := WComplex [(3 # 2, -1 # 1); (-15 # 2, 0 # 1); (7 # 1, -8 # 1); (1 # 3, -1 # 3);
                     (1 # 1, 2 # 1); (3 # 1, 4 # 1); (5 # 1, 6 # 1); (-5 # 1, -6 # 1)]%Q in
  Forall (fun v => - 2 ^ (4 - 1) <= v < 2 ^ (4 - 1)) (interlaced d) /\ zlen (interlaced d) * 4 mod 64 = 0 /\
  expect lut_i8 4 d = Complex [[(1, -1); (-7, 0); (7, -8); (0, 0); (1, 2); (3, 4); (5, 6); (-5, -6)]].
Proof.
  split; [|vm_compute; auto]. cbn [interlaced flat_map app fst snd trunc Qnum Qden].
  repeat apply Forall_cons; try apply Forall_nil; vm_compute; split; congruence.
Qed.

(** With read_frame_i8, real 4- and 8-bit data come back as the very integers
    written; 1- and 2-bit data as the symmetric levels 2v+1. *)
Lemma C22_vdif_i8_values_proof : forall before after bits stand secs epoch frame khz l,
  In bits [1; 2; 4; 8] ->
  0 <= stand < 2 ^ 16 -> 0 <= secs < 2 ^ 30 -> 0 <= epoch < 2 ^ 6 -> 0 <= frame < 2 ^ 24 -> 0 <= khz < 2 ^ 23 ->
  Forall (fun v => - 2 ^ (bits - 1) <= v < 2 ^ (bits - 1)) l ->
  zlen l * bits mod 64 = 0 -> 32 + zlen l * bits / 8 < 2 ^ 27 ->
  exists bytes h, write_vdif bits stand secs epoch frame khz (WReal (map inject_Z l)) = Ok bytes /\
    let data := before ++ bytes ++ after in
    read_i8_real (mkFile data (zlen before)) =
      (mkFile data (zlen before + zlen bytes), VGot (h, Real [if bits <? 4 then map (fun v => 2 * v + 1) l else l])).
Proof.
  intros before after bits stand secs epoch frame khz l Hb H1 H2 H3 H4 H5 HF Hm HL.
  assert (EI : interlaced (WReal (map inject_Z l)) = l).
  { cbn [interlaced]. rewrite map_map. rewrite <- (map_id l) at 2. apply map_ext. intro v. unfold trunc, inject_Z. cbn. apply Z.quot_1_r. }
  destruct (C22_vdif_write_read_proof Z lut_i8 before after bits stand secs epoch frame khz (WReal (map inject_Z l))) as (bytes & h & E1 & _ & E2 & _);
    auto; try (rewrite EI; auto).
  exists bytes, h. split; [exact E1|]. cbv zeta in *. unfold read_i8_real. rewrite E2. do 4 f_equal. cbn [expect]. do 2 f_equal.
  rewrite map_map.
  assert (EV : forall v, lut_i8 bits (trunc (inject_Z v) + 2 ^ (bits - 1)) = if bits <? 4 then 2 * v + 1 else v).
  { intro v. unfold trunc, inject_Z. cbn [Qnum Qden]. rewrite Z.quot_1_r. unfold lut_i8.
    pose proof (bits_cases _ Hb) as HC. destruct HC as [->|[->|[->| ->]]]; cbn - [Z.mul Z.add Z.sub]; lia. }
  destruct (bits <? 4) eqn:EB; [|rewrite <- (map_id l) at 2]; apply map_ext; intro v; rewrite EV; reflexivity.
Qed.
Lemma C22_vdif_i8_values_example_proof :
  Forall (fun v => - 2 ^ (8 - 1) <= v < 2 ^ (8 - 1)) [-128; 0; 127; 3; 4; 5; 6; -7] /\ zlen [-128; 0; 127; 3; 4; 5; 6; -7] * 8 mod 64 = 0.
Proof. split; [|reflexivity]. repeat apply Forall_cons; try apply Forall_nil; cbn; lia. Qed.

(** Whole 32-bit words are not enough: with an odd number of words the
    length field is 4 bytes short, so the reader loses the last samples and the next frame is
    read from inside this one. *)
Lemma C22_vdif_odd_words_refuted_proof : exists bytes h,
  write_vdif 8 1 0 0 0 1000 (WReal (map inject_Z [1; 2; 3; 4; 5; 6; 7; 8; 9; 10; 11; 12])) = Ok bytes /\
  zlen bytes = 44 /\
  read_i8_real (mkFile (bytes ++ bytes) 0) =
    (mkFile (bytes ++ bytes) 40, VGot (h, Real [[1; 2; 3; 4; 5; 6; 7; 8]])) /\
  match read_i8_real (mkFile (bytes ++ bytes) 40) with (_, VGot _) => False | _ => True end.
Proof.
  exists ([0; 0; 0; 0; 0; 0; 0; 0; 5; 0; 0; 64; 1; 0; 0; 28; 232; 3; 0; 1] ++ repeat 0 12 ++ map (Z.add 128) (zseq 1 12)),
         (mkVH 0 0 0 0 0 2 1 5 0 8 0 1 16778216 0 0 0).
  split; [vm_compute; reflexivity|]. split; [vm_compute; reflexivity|]. split; vm_compute; [reflexivity|exact I].
Qed.

(** A sample count that is not a whole number of words loses samples silently
    or fails with IndexError. *)
Lemma C22_vdif_partial_word_refuted_proof :
  (exists bytes, write_vdif 1 1 0 0 0 1000 (WReal (map inject_Z (repeat 0 67))) = Ok bytes /\ zlen bytes = 40) /\
  write_vdif 1 1 0 0 0 1000 (WReal (map inject_Z (repeat 0 72))) = Raise IndexError.
Proof. split; [eexists; split; vm_compute; reflexivity|vm_compute; reflexivity]. Qed.

(** Values out of range wrap round instead of saturating: the largest
    positive overflow reads back as the most negative value. *)
Lemma C22_vdif_overflow_refuted_proof : exists bytes h,
  write_vdif 8 1 0 0 0 1000 (WReal (map inject_Z [128; 127; -129; 0; 0; 0; 0; 0])) = Ok bytes /\
  read_i8_real (mkFile bytes 0) = (mkFile bytes 40, VGot (h, Real [[-128; 127; 127; 0; 0; 0; 0; 0]])).
Proof.
  exists ([0; 0; 0; 0; 0; 0; 0; 0; 5; 0; 0; 64; 1; 0; 0; 28; 232; 3; 0; 1] ++ repeat 0 12 ++ [0; 255; 255; 128; 128; 128; 128; 128]),
         (mkVH 0 0 0 0 0 2 1 5 0 8 0 1 16778216 0 0 0).
  split; vm_compute; reflexivity.
Qed.

(** C47: frames are buffered in order of second and frame number as long as
    there are fewer than a million frames in a second. *)
Lemma C47_vdif_buffer_order_proof : forall f g, 0 <= v_fis f < 1000000 -> 0 <= v_fis g < 1000000 ->
  (o_fom vdif_ops f < o_fom vdif_ops g <-> v_sec f < v_sec g \/ v_sec f = v_sec g /\ v_fis f < v_fis g) /\
  (o_fom vdif_ops f = o_fom vdif_ops g <-> v_sec f = v_sec g /\ v_fis f = v_fis g).
Proof. intros f g Hf Hg. cbn [o_fom vdif_ops]. split; [apply vdif_fom_order; auto|]. unfold vdif_fom. lia. Qed.
Lemma C47_vdif_buffer_order_example_proof :
  o_fom vdif_ops (mkVdif 5 999999 0 0 [] true) < o_fom vdif_ops (mkVdif 6 0 0 0 [] true).
Proof. vm_compute. reflexivity. Qed.
(** The 24-bit frame number allows more, and then frames of different seconds
    are taken for the same time. *)
Lemma C47_vdif_buffer_order_refuted_proof : exists f g, v_fis f < 2 ^ 24 /\ v_fis g < 2 ^ 24 /\
  v_sec f < v_sec g /\ o_fom vdif_ops f = o_fom vdif_ops g.
Proof. exists (mkVdif 5 1000000 0 0 [] true), (mkVdif 6 0 0 0 [] true). vm_compute. auto. Qed.

(** C49: on a stream of recorded frames get_frame_size and get_thread_count
    return the first frame's size and the number of distinct threads among the
    first 1024 frames, and leave the file as it was. *)
Lemma C49_vdif_describe_proof : forall V (lut : Z -> Z -> V) before r rs threads, Forall vdif_ok (r :: rs) ->
  NoDup threads -> (forall t, In t threads <-> In t (map r_thread (firstn 1024 (r :: rs)))) ->
  let f := mkFile (before ++ flat_map vdif_bytes (r :: rs)) (zlen before) in
  v_frame_size (read_vdif lut) f = (f, Ok (zlen (vdif_bytes r))) /\
  thread_count (read_vdif lut) f = (f, Ok (zlen threads)).
Proof.
  intros V lut before r rs threads H HN HI f. split.
  - rewrite vdif_bytes_zlen by (inversion H; auto). apply frame_size_stream. inversion H; auto.
  - unfold f. rewrite thread_count_stream by auto. do 2 f_equal.
    unfold zlen. f_equal. apply Nat.le_antisymm; apply NoDup_incl_length; auto; try apply NoDup_nodup.
    + intros t Ht. apply nodup_In in Ht. apply HI. auto.
    + intros t Ht. apply nodup_In. apply HI. auto.
Qed.
Lemma C49_vdif_describe_example_proof :
  let rs := [demo_vdif 3 0 0; demo_legacy; demo_vdif 3 0 1] in
  Forall vdif_ok rs /\ NoDup [3; 1023] /\ (forall t, In t [3; 1023] <-> In t (map r_thread (firstn 1024 rs))).
Proof.
  split; [repeat apply Forall_cons; try apply Forall_nil; try apply demo_legacy_ok; apply demo_vdif_ok; lia|].
  split; [repeat constructor; cbn; intuition lia|]. intro t. cbn. intuition lia.
Qed.

(** In a regular recording of [R] frames per second (any number of threads up
    to 1024, any samples) get_frames_per_second returns [R] and get_sample_rate
    [R] times the samples per channel of a frame, provided the file does not start with the last
    frame of a second and contains the start of the next second. *)
Lemma C49_vdif_rate_proof : forall V (lut : Z -> Z -> V) before R s0 k0 n ts r rs,
  Forall vdif_ok (r :: rs) -> NoDup ts -> 1 <= zlen ts <= 1024 -> 1 < R -> 0 <= k0 ->
  regular R s0 k0 n ts (r :: rs) ->
  k0 mod R < R - 1 -> R * (k0 / R + 1) < k0 + Z.of_nat n ->
  let f := mkFile (before ++ flat_map vdif_bytes (r :: rs)) (zlen before) in
  frames_per_second (read_vdif lut) f = (f, Ok R) /\
  sample_rate_of (read_vdif lut) f = (f, Ok (zlen (r_levels r) / parts r / 2 ^ r_lognchan r * R)).
Proof.
  intros V lut before R s0 k0 n ts r rs HF Hts HT HR Hk Hreg Hm Hn f.
  assert (E : frames_per_second (read_vdif lut) f = (f, Ok R)) by (eapply fps_regular; eauto).
  split; [exact E|]. unfold sample_rate_of. rewrite E.
  inversion HF as [|? ? H1 H2]; subst.
  destruct (read_stream_step lut before r rs H1) as (h & x & E2 & SH & SX). fold f in E2. rewrite E2.
  rewrite restore_eq; [|cbn; apply zlen_nonneg|unfold f; cbn [f_data flat_map]; rewrite app_assoc; reflexivity].
  do 2 f_equal. f_equal.
  assert (HC : 0 < 2 ^ r_lognchan r) by (apply Z.pow_pos_nonneg; [lia|]; destruct H1 as (_ & _ & _ & _ & H1 & _); lia).
  destruct x as [rows|rows], SX as [SC (SL & SB)]; cbn [row_len]; unfold parts; rewrite SC.
  - destruct (SB (lut 0 0) 0 ltac:(lia)) as [SZ _]. destruct rows as [|row rows]; [change (zlen (@nil (list V))) with 0 in SL; lia|].
    change (znth [] 0 (row :: rows)) with row in SZ. cbn [hd]. rewrite SZ, zlen_map, Z.div_1_r. reflexivity.
  - destruct (SB (lut 0 0, lut 0 0) 0 ltac:(lia)) as [SZ _]. destruct rows as [|row rows]; [change (zlen (@nil (list (V * V)))) with 0 in SL; lia|].
    change (znth [] 0 (row :: rows)) with row in SZ. cbn [hd]. rewrite SZ. f_equal.
    assert (CL : forall m (l : list V), (length l <= m)%nat -> zlen (complex_of l) = zlen l / 2).
    { clear. induction m as [|m IH]; intros [|a [|b l]] Hm; try reflexivity; try (cbn in Hm; lia).
      cbn [complex_of]. rewrite !zlen_cons, IH by (cbn in Hm; lia). lia. }
    rewrite (CL (length (map (lut (r_bits r)) (r_levels r)))) by lia. rewrite zlen_map. reflexivity.
Qed.
Definition demo_rec (R s0 k0 : Z) (n : nat) (ts : list Z) : list vrec :=
  flat_map (fun k => map (fun t => demo_small t (s0 + k / R) (k mod R)) ts) (zseq k0 n).
Lemma demo_rec_regular : forall R s0 k0 n ts, regular R s0 k0 n ts (demo_rec R s0 k0 n ts).
Proof.
  intros. unfold regular, demo_rec. induction (zseq k0 n) as [|k ks IH]; [reflexivity|].
  cbn [flat_map]. rewrite map_app, IH. f_equal. rewrite map_map. reflexivity.
Qed.
Lemma C49_vdif_rate_example_proof :
  let rs := demo_rec 5 100 12 4 [7; 2; 9] in
  Forall vdif_ok rs /\ regular 5 100 12 4 [7; 2; 9] rs /\ 12 mod 5 < 5 - 1 /\ 5 * (12 / 5 + 1) < 12 + Z.of_nat 4.
Proof.
  cbv zeta. split; [|split; [apply demo_rec_regular|split; reflexivity]].
  unfold demo_rec. cbn [zseq flat_map map app].
  repeat apply Forall_cons; try apply Forall_nil; apply demo_small_ok; vm_compute; split; congruence.
Qed.

(** Neither proviso can be dropped: a regular recording of 5 frames per second
    is reported as 1 frame per second when it starts with the last frame of a second, and as fewer
    than recorded when it ends before the second does. *)
Lemma C49_vdif_rate_refuted_proof : exists rs1 rs2,
  regular 5 0 4 7 [0] rs1 /\ regular 5 0 0 3 [0] rs2 /\ Forall vdif_ok rs1 /\ Forall vdif_ok rs2 /\
  (let f := mkFile (flat_map vdif_bytes rs1) 0 in snd (frames_per_second read_i8_real f) = Ok 1) /\
  (let f := mkFile (flat_map vdif_bytes rs2) 0 in snd (frames_per_second read_i8_real f) = Ok 3).
Proof.
  exists (demo_rec 5 0 4 7 [0]), (demo_rec 5 0 0 3 [0]).
  split; [apply demo_rec_regular|]. split; [apply demo_rec_regular|].
  split; [|split; [|split; vm_compute; reflexivity]];
  unfold demo_rec; cbn [zseq flat_map map app];
  repeat apply Forall_cons; try apply Forall_nil; apply demo_small_ok; vm_compute; split; congruence.
Qed.

(** A thread that does not appear among the first frames (as many as there are
    threads) makes get_frames_per_second fail with KeyError. *)
Lemma C49_vdif_uneven_threads_refuted_proof : exists rs, Forall vdif_ok rs /\
  snd (frames_per_second read_i8_real (mkFile (flat_map vdif_bytes rs) 0)) = Raise KeyError.
Proof.
  exists [demo_small 0 1 0; demo_small 0 1 1; demo_small 1 1 0]. split; [|vm_compute; reflexivity].
  repeat apply Forall_cons; try apply Forall_nil; apply demo_small_ok; lia.
Qed.
