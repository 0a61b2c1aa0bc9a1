(** Final forms of the DRX/DRX8 properties (C12-C17, C45). *)
From Coq Require Import List ZArith Bool Lia QArith.
From Verif Require Import M_Drx M_SimDrx S_Drx P_Drx P_Drx2.
Import ListNotations.
Open Scope Z_scope.
Ltac Zify.zify_post_hook ::= Z.div_mod_to_equations.

(** A concrete well-formed frame: a ramp through all sample values. *)
Definition ramp (n : nat) : list (Z * Z) := map (fun i => (i mod 16 - 8, (i / 16) mod 16 - 8)) (zseq 0 n).
Definition demo_record : recorded :=
  mkRec 3 2 1 16777215 4294967295 10 65535 (2 ^ 64 - 1) 1234567890 2147483648 (ramp (Z.to_nat 4096)).
Definition fitsb (lo hi : Z) (s : Z * Z) : bool := (lo <=? fst s) && (fst s <=? hi) && (lo <=? snd s) && (snd s <=? hi).
Lemma fitsb_all : forall lo hi l, forallb (fitsb lo hi) l = true -> Forall (fits lo hi) l.
Proof.
  intros lo hi l H. apply Forall_forall. intros x Hx. rewrite forallb_forall in H. specialize (H x Hx).
  unfold fitsb in H. unfold fits. lia.
Qed.
Lemma demo_wf : well_formed_drx demo_record.
Proof.
  unfold well_formed_drx, well_formed. cbn [demo_record r_beam r_tune r_pol r_count r_secs r_dec r_toff r_tag r_word r_flags r_samples].
  repeat split; try lia. apply fitsb_all. vm_compute. reflexivity.
Qed.

Definition other_beam (b : Z) : recorded := mkRec b 2 1 0 0 10 0 1000 1234567890 0 (ramp (Z.to_nat 4096)).
Lemma other_beam_wf : forall b, 0 <= b < 8 -> well_formed_drx (other_beam b).
Proof.
  intros b H. unfold well_formed_drx, well_formed. cbn [other_beam r_beam r_tune r_pol r_count r_secs r_dec r_toff r_tag r_word r_flags r_samples].
  repeat split; try lia. apply fitsb_all. vm_compute. reflexivity.
Qed.

(** C12: a well-formed frame anywhere in a file (any bytes before and after) is
    read with exactly its recorded fields and samples, its identifier decodes
    to (beam, tuning, pol), it is recognised as DRX, and the file position
    advances by 4128 with the content unchanged. *)
Lemma C12_drx_decode_proof : forall before after r, well_formed_drx r ->
  let data := before ++ drx_bytes r ++ after in
  exists d, read_drx (mkFile data (zlen before)) = (mkFile data (zlen before + 4128), Got d) /\
    d_count d = r_count r /\ d_secs d = r_secs r /\ d_dec d = r_dec r /\ d_toff d = r_toff r /\
    d_tag d = r_tag r /\ d_tune d = r_word r /\ d_flags d = r_flags r /\
    d_data d = interleave (r_samples r) /\
    drx_id_tuple (d_id d) = (r_beam r, r_tune r, r_pol r) /\ is_drx d = true /\ is_drx8 d = false.
Proof.
  intros before after r W data. exists (frame_of false r). unfold data. rewrite read_drx_ok by auto.
  destruct W as (W1 & W2 & W3 & _).
  destruct (id_tuple_roundtrip false _ _ _ W1 W2 W3) as [I1 I2].
  repeat split; auto; unfold is_drx, is_drx8, frame_of, id_byte; cbn [d_id]; rewrite I2; reflexivity.
Qed.

Lemma C12_drx_decode_example_proof : well_formed_drx demo_record /\
  zlen (drx_bytes demo_record) = 4128 /\
  (exists d, read_drx (mkFile ([7; 8] ++ drx_bytes demo_record ++ [9]) 2) = (mkFile ([7; 8] ++ drx_bytes demo_record ++ [9]) 4130, Got d)
     /\ znth 0 0 (d_data d) = -8 /\ znth 0 1 (d_data d) = -8 /\ znth 0 8191 (d_data d) = 7 /\ d_tag d = 2 ^ 64 - 1).
Proof.
  split; [exact demo_wf|]. split; [vm_compute; reflexivity|].
  eexists. split; [exact (read_drx_ok [7; 8] [9] demo_record demo_wf)|]. repeat split; vm_compute; reflexivity.
Qed.

(** C14: the same for DRX8. *)
Lemma C14_drx8_decode_proof : forall before after r, well_formed_drx8 r ->
  let data := before ++ drx8_bytes r ++ after in
  exists d, read_drx8 (mkFile data (zlen before)) = (mkFile data (zlen before + 8224), Got d) /\
    d_count d = r_count r /\ d_secs d = r_secs r /\ d_dec d = r_dec r /\ d_toff d = r_toff r /\
    d_tag d = r_tag r /\ d_tune d = r_word r /\ d_flags d = r_flags r /\
    d_data d = interleave (r_samples r) /\
    drx_id_tuple (d_id d) = (r_beam r, r_tune r, r_pol r) /\ is_drx d = false /\ is_drx8 d = true.
Proof.
  intros before after r W data. exists (frame_of true r). unfold data. rewrite read_drx8_ok by auto.
  destruct W as (W1 & W2 & W3 & _).
  destruct (id_tuple_roundtrip true _ _ _ W1 W2 W3) as [I1 I2].
  repeat split; auto; unfold is_drx, is_drx8, frame_of, id_byte; cbn [d_id]; rewrite I2; reflexivity.
Qed.

Definition demo8_record : recorded :=
  mkRec 4 1 0 0 1 20 3 12345678901234567890 77 0 (map (fun i => (i mod 256 - 128, 127 - i mod 256)) (zseq 0 (Z.to_nat 4096))).
Lemma C14_drx8_decode_example_proof : well_formed_drx8 demo8_record /\ zlen (drx8_bytes demo8_record) = 8224.
Proof.
  split; [|vm_compute; reflexivity].
  unfold well_formed_drx8, well_formed. cbn [demo8_record r_beam r_tune r_pol r_count r_secs r_dec r_toff r_tag r_word r_flags r_samples].
  repeat split; try lia. apply fitsb_all. vm_compute. reflexivity.
Qed.

(** C13: on any byte string at any position, a DRX read raises EOF exactly when
    fewer than 4128 bytes are left (consuming them), returns a frame exactly
    when the next four bytes are the sync word, and otherwise reports a sync
    error located at the frame start; the last two consume 4128 bytes. *)
Lemma C13_drx_read_total_proof : forall data pos f' r, bytes_ok data -> 0 <= pos <= zlen data ->
  read_drx (mkFile data pos) = (f', r) ->
  let left := zlen data - pos in
  let synced := ztake 4 (zdrop pos data) = [222; 192; 222; 92] in
  f_data f' = data /\ f_pos f' = pos + Z.min 4128 left /\
  (r = AtEOF <-> left < 4128) /\
  ((exists d, r = Got d) <-> 4128 <= left /\ synced) /\
  (forall loc, r = BadSync loc <-> loc = pos /\ 4128 <= left /\ ~ synced).
Proof.
  intros data pos f' r HB HP HR left synced.
  pose proof (read_gen_total 4128 fill4 (mkFile data pos) ltac:(cbn; lia) ltac:(lia) HB) as H.
  unfold read_drx, drx_size in HR. rewrite HR in H. cbn [f_pos f_data] in H. fold synced in H.
  assert (HL : zlen (zdrop pos data) = left) by (rewrite zlen_zdrop by lia; lia). rewrite HL in H.
  destruct H as [Hd H]. split; auto. subst left.
  destruct H as [(H1 & H2 & H3)|(H1 & H2 & [(H3 & H4)|(H3 & H4)])]; subst r.
  - split; [lia|]. split; [split; [intros _; lia|intros _; reflexivity]|]. split; [split; [intros [d E]; discriminate|lia]|].
    intro loc. split; [discriminate|lia].
  - split; [lia|]. split; [split; [discriminate|lia]|]. split; [split; [intros _; split; [lia|exact H3]|intros _; eexists; reflexivity]|].
    intro loc. split; [discriminate|tauto].
  - split; [lia|]. split; [split; [discriminate|lia]|]. split; [split; [intros [d E]; discriminate|tauto]|].
    intro loc. split; [intro E; inversion E; split; [reflexivity|split; [lia|exact H3]]|intros [-> _]; auto].
Qed.

(** The same for DRX8 with its frame size. *)
Lemma C13_drx8_read_total_proof : forall data pos f' r, bytes_ok data -> 0 <= pos <= zlen data ->
  read_drx8 (mkFile data pos) = (f', r) ->
  let left := zlen data - pos in
  let synced := ztake 4 (zdrop pos data) = [222; 192; 222; 92] in
  f_data f' = data /\ f_pos f' = pos + Z.min 8224 left /\
  (r = AtEOF <-> left < 8224) /\
  ((exists d, r = Got d) <-> 8224 <= left /\ synced) /\
  (forall loc, r = BadSync loc <-> loc = pos /\ 8224 <= left /\ ~ synced).
Proof.
  intros data pos f' r HB HP HR left synced.
  pose proof (read_gen_total 8224 fill8 (mkFile data pos) ltac:(cbn; lia) ltac:(lia) HB) as H.
  unfold read_drx8, drx8_size in HR. rewrite HR in H. cbn [f_pos f_data] in H. fold synced in H.
  assert (HL : zlen (zdrop pos data) = left) by (rewrite zlen_zdrop by lia; lia). rewrite HL in H.
  destruct H as [Hd H]. split; auto. subst left.
  destruct H as [(H1 & H2 & H3)|(H1 & H2 & [(H3 & H4)|(H3 & H4)])]; subst r.
  - split; [lia|]. split; [split; [intros _; lia|intros _; reflexivity]|]. split; [split; [intros [d E]; discriminate|lia]|].
    intro loc. split; [discriminate|lia].
  - split; [lia|]. split; [split; [discriminate|lia]|]. split; [split; [intros _; split; [lia|exact H3]|intros _; eexists; reflexivity]|].
    intro loc. split; [discriminate|tauto].
  - split; [lia|]. split; [split; [discriminate|lia]|]. split; [split; [intros [d E]; discriminate|tauto]|].
    intro loc. split; [intro E; inversion E; split; [reflexivity|split; [lia|exact H3]]|intros [-> _]; auto].
Qed.

Lemma C13_drx_read_total_example_proof :
  bytes_ok (repeat 0 (Z.to_nat 4128)) /\
  snd (read_drx (mkFile (repeat 0 (Z.to_nat 4128)) 0)) = BadSync 0 /\
  snd (read_drx (mkFile (repeat 0 (Z.to_nat 4128)) 1)) = AtEOF.
Proof.
  split; [|split; vm_compute; reflexivity].
  apply Forall_forall. intros x H. apply repeat_spec in H. subst. unfold is_byte. lia.
Qed.

Lemma wf_len : forall r, well_formed_drx r -> zlen (drx_bytes r) = 4128.
Proof. intros r (_ & _ & _ & _ & _ & _ & _ & _ & _ & _ & H & _). apply drx_bytes_zlen. auto. Qed.
Lemma wf_len8 : forall r, well_formed_drx8 r -> zlen (drx8_bytes r) = 8224.
Proof. intros r (_ & _ & _ & _ & _ & _ & _ & _ & _ & _ & H & _). apply drx8_bytes_zlen. auto. Qed.

(** Reading a concatenation of well-formed frames, possibly followed by an
    incomplete one, returns all the frames in order, then EOF. *)
Lemma C13_drx_stream_proof : forall rs tail f, Forall well_formed_drx rs -> zlen tail < 4128 ->
  f = mkFile (flat_map drx_bytes rs ++ tail) 0 ->
  exists f' ds, read_n read_drx (length rs) f = (f', ds, None) /\
    map (fun d => (drx_id_tuple (d_id d), d_count d, d_tag d, d_data d)) ds =
    map (fun r => ((r_beam r, r_tune r, r_pol r), r_count r, r_tag r, interleave (r_samples r))) rs /\
    snd (read_drx f') = AtEOF.
Proof.
  intros rs tail f HW HT ->.
  pose proof (read_n_stream 4128 read_drx drx_bytes (frame_of false) well_formed_drx read_drx_ok wf_len rs [] tail HW) as H.
  cbn [app] in H. change (zlen (@nil Z)) with 0 in H.
  eexists _, _. split; [exact H|]. split.
  - rewrite map_map. apply map_ext_in. intros r Hr. rewrite Forall_forall in HW. destruct (HW r Hr) as (W1 & W2 & W3 & _).
    destruct (id_tuple_roundtrip false _ _ _ W1 W2 W3) as [I1 I2]. unfold frame_of, id_byte. cbn [d_id d_count d_tag d_data].
    rewrite I1. reflexivity.
  - assert (HZ : zlen (flat_map drx_bytes rs) = 4128 * zlen rs).
    { clear H HT. induction HW as [|r rs Hr HW IH]; [cbn; lia|]. cbn [flat_map]. rewrite zlen_app, zlen_cons, IH, wf_len by auto. lia. }
    unfold read_drx, read_frame_gen, f_read, drx_size. cbn [f_pos f_data].
    rewrite zdrop_app_ge by lia. rewrite zdrop_0 by lia. change (4128 <? 0) with false. cbn iota.
    rewrite (ztake_all 4128 tail) by lia.
    destruct (Z.eqb_spec (zlen tail) 4128); [lia|]. reflexivity.
Qed.
Lemma C13_drx_stream_example_proof : Forall well_formed_drx [demo_record; demo_record] /\ zlen [1; 2; 3] < 4128.
Proof. split; [|cbn; lia]. apply Forall_cons; [exact demo_wf|]. apply Forall_cons; [exact demo_wf|]. apply Forall_nil. Qed.

Lemma C13_drx8_stream_proof : forall rs tail f, Forall well_formed_drx8 rs -> zlen tail < 8224 ->
  f = mkFile (flat_map drx8_bytes rs ++ tail) 0 ->
  exists f' ds, read_n read_drx8 (length rs) f = (f', ds, None) /\
    map (fun d => (drx_id_tuple (d_id d), d_count d, d_tag d, d_data d)) ds =
    map (fun r => ((r_beam r, r_tune r, r_pol r), r_count r, r_tag r, interleave (r_samples r))) rs /\
    snd (read_drx8 f') = AtEOF.
Proof.
  intros rs tail f HW HT ->.
  pose proof (read_n_stream 8224 read_drx8 drx8_bytes (frame_of true) well_formed_drx8 read_drx8_ok wf_len8 rs [] tail HW) as H.
  cbn [app] in H. change (zlen (@nil Z)) with 0 in H.
  eexists _, _. split; [exact H|]. split.
  - rewrite map_map. apply map_ext_in. intros r Hr. rewrite Forall_forall in HW. destruct (HW r Hr) as (W1 & W2 & W3 & _).
    destruct (id_tuple_roundtrip true _ _ _ W1 W2 W3) as [I1 I2]. unfold frame_of, id_byte. cbn [d_id d_count d_tag d_data].
    rewrite I1. reflexivity.
  - assert (HZ : zlen (flat_map drx8_bytes rs) = 8224 * zlen rs).
    { clear H HT. induction HW as [|r rs Hr HW IH]; [cbn; lia|]. cbn [flat_map]. rewrite zlen_app, zlen_cons, IH, wf_len8 by auto. lia. }
    unfold read_drx8, read_frame_gen, f_read, drx8_size. cbn [f_pos f_data].
    rewrite zdrop_app_ge by lia. rewrite zdrop_0 by lia. change (8224 <? 0) with false. cbn iota.
    rewrite (ztake_all 8224 tail) by lia.
    destruct (Z.eqb_spec (zlen tail) 8224); [lia|]. reflexivity.
Qed.

(** C15: packing then decoding gives back beam, tuning and polarisation. *)
Lemma C15_id_roundtrip_proof : forall beam tune pol, 0 <= beam < 8 -> 0 <= tune < 8 -> 0 <= pol < 2 ->
  drx_id_tuple (make_drx_id beam tune pol) = (beam, tune, pol) /\
  0 <= make_drx_id beam tune pol < 256.
Proof.
  intros beam tune pol Hb Ht Hp. rewrite make_id_eq, !Z.mod_small by lia.
  destruct (id_tuple_roundtrip false beam tune pol Hb Ht Hp) as [I1 _]. cbn iota in I1.
  replace (beam + 8 * tune + 128 * pol) with (beam + 8 * tune + 64 * 0 + 128 * pol) by lia. split; [auto|lia].
Qed.
(** Distinct triples have distinct identifiers. *)
Lemma C15_id_injective_proof : forall b1 t1 p1 b2 t2 p2,
  0 <= b1 < 8 -> 0 <= t1 < 8 -> 0 <= p1 < 2 -> 0 <= b2 < 8 -> 0 <= t2 < 8 -> 0 <= p2 < 2 ->
  make_drx_id b1 t1 p1 = make_drx_id b2 t2 p2 -> b1 = b2 /\ t1 = t2 /\ p1 = p2.
Proof. intros. rewrite !make_id_eq, !Z.mod_small in * by lia. lia. Qed.
(** Every identifier byte is either DRX or DRX8, never both, and the identifiers
    the simulator makes are DRX. *)
Lemma C15_drx_or_drx8_proof : forall d, 0 <= d_id d < 256 ->
  is_drx d = negb (is_drx8 d) /\
  (forall b t p, d_id d = make_drx_id b t p -> is_drx d = true).
Proof.
  intros d H. unfold is_drx, is_drx8.
  set (chk := fun x => Z.land (Z.shiftr x 6) 1 =? x / 64 mod 2).
  pose proof (zseq_sweep chk 0 256 eq_refl (d_id d) H) as HC. unfold chk in HC. apply Z.eqb_eq in HC. rewrite HC.
  split.
  - destruct (Z.eqb_spec (d_id d / 64 mod 2) 0), (Z.eqb_spec (d_id d / 64 mod 2) 1); auto; exfalso; lia.
  - intros b t p E. rewrite make_id_eq in E. apply Z.eqb_eq. lia.
Qed.
Lemma C15_id_example_proof : make_drx_id 4 2 1 = 148 /\ drx_id_tuple 148 = (4, 2, 1) /\ drx_id_tuple (148 + 64) = (4, 2, 1).
Proof. repeat split. Qed.

(** C17: the value written for a floating point sample is the nearest integer
    (ties to even) saturated to [-8, 7]. *)
Lemma C17_quantise_nearest_saturating_proof : forall l,
  map fst (quantise (Cplx l)) = map (fun s => saturate (-8) 7 (round_even (fst s))) l /\
  map snd (quantise (Cplx l)) = map (fun s => saturate (-8) 7 (round_even (snd s))) l /\
  (forall q, nearest_even q (round_even q)) /\ (forall q k, nearest_even q k -> round_even q = k).
Proof.
  intro l. cbn [quantise]. rewrite !map_map. cbn [fst snd].
  split; [apply map_ext; intro; apply clip4_saturate|]. split; [apply map_ext; intro; apply clip4_saturate|].
  split; [exact round_even_spec|].
  intros q k H. apply (nearest_even_unique q); auto. apply round_even_spec.
Qed.
(** Quantising is the identity on representable integers, hence idempotent,
    monotone, and what is read back is the quantised value: nothing wraps. *)
Lemma C17_quantise_idempotent_proof : forall l,
  Forall (fits (-8) 7) (quantise (Cplx l)) /\
  quantise (Cplx (map (fun s => (inject_Z (fst s), inject_Z (snd s))) (quantise (Cplx l)))) = quantise (Cplx l) /\
  (forall s, Forall (fits (-8) 7) s -> quantise (Cplx (map (fun s => (inject_Z (fst s), inject_Z (snd s))) s)) = s).
Proof.
  intro l.
  assert (HI : forall s, Forall (fits (-8) 7) s -> quantise (Cplx (map (fun s => (inject_Z (fst s), inject_Z (snd s))) s)) = s).
  { intros s H. cbn [quantise]. rewrite map_map. cbn [fst snd].
    rewrite <- (map_id s) at 2. apply map_ext_in. intros [a b] Hx. rewrite Forall_forall in H. specialize (H _ Hx).
    unfold fits in H. cbn [fst snd] in *. rewrite !round_even_int. unfold clip4. f_equal; lia. }
  assert (HF : Forall (fits (-8) 7) (quantise (Cplx l))).
  { cbn [quantise]. apply Forall_forall. intros x Hx. apply in_map_iff in Hx. destruct Hx as (y & <- & _).
    unfold fits, clip4. cbn [fst snd]. lia. }
  split; auto.
Qed.
Lemma C17_quantise_monotone_proof : forall a b, (a <= b)%Q ->
  saturate (-8) 7 (round_even a) <= saturate (-8) 7 (round_even b).
Proof.
  intros a b H. apply round_even_mono in H. unfold saturate.
  destruct (Z.ltb_spec (round_even a) (-8)), (Z.ltb_spec (round_even b) (-8)), (Z.ltb_spec 7 (round_even a)), (Z.ltb_spec 7 (round_even b)); lia.
Qed.
Lemma C17_quantise_example_proof :
  quantise (Cplx [((5 # 2)%Q, (7 # 2)%Q); ((1000 # 3)%Q, (-1000 # 3)%Q); ((-1 # 2)%Q, (3 # 4)%Q)]) = [(2, 4); (7, -8); (0, 1)].
Proof. reflexivity. Qed.
(** Integer (CI8) samples are not saturated: a frame holding 8-bit samples is accepted as
    valid and the sample 8 is written, and read back, as -8. *)
Lemma C17_ci8_wraps_refuted_proof : exists s, sim_is_valid true s = Ok true /\
  exists raw d f', create_raw_frame s = Ok raw /\ read_drx (mkFile raw 0) = (f', Got d) /\
    s_data s = Some (Ci8 (repeat (8, 100) (Z.to_nat 4096))) /\ znth 0 0 (d_data d) = -8 /\ znth 0 1 (d_data d) = 4.
Proof.
  exists (mkSim 1 1 0 10 0 0 5 0 (Some (Ci8 (repeat (8, 100) (Z.to_nat 4096))))).
  split; [vm_compute; reflexivity|]. eexists _, _, _.
  split; [vm_compute; reflexivity|]. split; [vm_compute; reflexivity|]. split; [reflexivity|]. split; vm_compute; reflexivity.
Qed.

Lemma sim_read_back : forall s l raw, create_raw_frame s = Ok raw -> s_data s = Some (Cplx l) ->
  0 <= s_dec s < 2 ^ 16 -> 0 <= s_toff s < 2 ^ 16 -> 0 <= s_time s < 2 ^ 64 -> 0 <= s_flags s < 2 ^ 32 ->
  well_formed_drx (sim_record s (Cplx l)) /\ raw = drx_bytes (sim_record s (Cplx l)).
Proof.
  intros s l raw HC HD H1 H2 H3 H4.
  unfold create_raw_frame in HC. rewrite HD in HC. destruct (sim_is_valid true s); cbn [bind payload_len] in HC; [|discriminate].
  destruct (Z.eqb_spec (zlen l) 4096) as [HL|HL]; [|discriminate HC]. cbn [negb] in HC.
  inversion HC as [E]. rewrite frame_to_frame_bytes. split; [|reflexivity].
  unfold well_formed_drx, well_formed, sim_record.
  cbn [r_beam r_tune r_pol r_count r_secs r_dec r_toff r_tag r_word r_flags r_samples].
  repeat split; try lia.
  - cbn [quantise]. rewrite zlen_map. auto.
  - apply (C17_quantise_idempotent_proof l).
Qed.

(** C16: every frame that is written whose samples are floating point and
    whose fields fit the format is written as 4128 bytes that read back, from any place in a file,
    with the same identifier, decimation, time offset, time tag, flags and the
    quantised samples.  Missing: the tuning word is not written (refuted below),
    and the frame and second counts are always written as zero. *)
Lemma C16_sim_roundtrip_partial_proof : forall s l before after,
  s_data s = Some (Cplx l) ->
  0 <= s_dec s < 2 ^ 16 -> 0 <= s_toff s < 2 ^ 16 -> 0 <= s_time s < 2 ^ 64 -> 0 <= s_flags s < 2 ^ 32 ->
  1 <= s_beam s <= 4 -> 1 <= s_tune s <= 2 -> 0 <= s_pol s <= 1 -> zlen l = 4096 ->
  sim_is_valid true s = Ok true /\
  exists raw, create_raw_frame s = Ok raw /\ zlen raw = 4128 /\
  exists d, read_drx (mkFile (before ++ raw ++ after) (zlen before)) =
      (mkFile (before ++ raw ++ after) (zlen before + 4128), Got d) /\
    drx_id_tuple (d_id d) = (s_beam s, s_tune s, s_pol s) /\
    d_dec d = s_dec s /\ d_toff d = s_toff s /\ d_tag d = s_time s /\ d_flags d = s_flags s /\
    d_data d = interleave (quantise (Cplx l)).
Proof.
  intros s l before after HD H1 H2 H3 H4 H5 H6 H7 HL.
  assert (HV : sim_is_valid true s = Ok true).
  { unfold sim_is_valid. destruct (C15_id_roundtrip_proof (s_beam s) (s_tune s) (s_pol s)) as [I _]; try lia. rewrite I, HD.
    cbn [payload_len]. rewrite HL. change (2 ^ 16) with 65536 in *. unfold fS.
    destruct (Z.geb_spec (s_toff s) 196000000); [lia|].
    destruct (Z.leb_spec 1 (s_beam s)); [|lia]. destruct (Z.leb_spec (s_beam s) 4); [|lia].
    destruct (Z.leb_spec 1 (s_tune s)); [|lia]. destruct (Z.leb_spec (s_tune s) 2); [|lia].
    destruct (Z.leb_spec 0 (s_pol s)); [|lia]. destruct (Z.leb_spec (s_pol s) 1); [|lia]. reflexivity. }
  split; auto.
  assert (HC : exists raw, create_raw_frame s = Ok raw).
  { unfold create_raw_frame. rewrite HV, HD. cbn [bind payload_len]. rewrite HL. cbn. eauto. }
  destruct HC as [raw HC]. exists raw. split; auto.
  destruct (sim_read_back s l raw HC HD H1 H2 H3 H4) as [W ->].
  split; [apply wf_len; auto|]. eexists. split; [apply read_drx_ok; auto|].
  destruct W as (W1 & W2 & W3 & _).
  destruct (id_tuple_roundtrip false _ _ _ W1 W2 W3) as [I1 I2].
  split; [|repeat split; auto].
  unfold frame_of, id_byte. cbn [d_id]. rewrite I1. cbn [sim_record r_beam r_tune r_pol]. repeat f_equal; lia.
Qed.

(** The tuning word is never written: whatever frame is built or loaded, the
    written frame reads back with tuning word 0 (and frame and second count 0). *)
Lemma C16_tuning_word_never_written_proof : forall s l raw f' d,
  s_data s = Some (Cplx l) -> create_raw_frame s = Ok raw ->
  0 <= s_dec s < 2 ^ 16 -> 0 <= s_toff s < 2 ^ 16 -> 0 <= s_time s < 2 ^ 64 -> 0 <= s_flags s < 2 ^ 32 ->
  read_drx (mkFile raw 0) = (f', Got d) -> d_tune d = 0 /\ d_count d = 0 /\ d_secs d = 0.
Proof.
  intros s l raw f' d HD HC H1 H2 H3 H4 HR.
  destruct (sim_read_back s l raw HC HD H1 H2 H3 H4) as [W ->].
  pose proof (read_drx_ok [] [] _ W) as X. cbn [app] in X. rewrite app_nil_r in X. change (zlen (@nil Z)) with 0 in X.
  rewrite X in HR. inversion HR; subst. cbn. split; [|auto]. apply Z.div_small. auto.
Qed.
Definition demo_sim : simframe :=
  mkSim 2 1 1 20 0 5 (2 ^ 60) 0 (Some (Cplx (map (fun i => (i # 3, 5 # 2)%Q) (zseq 0 (Z.to_nat 4096))))).
Lemma C16_sim_roundtrip_example_proof : sim_is_valid true demo_sim = Ok true /\
  exists raw, create_raw_frame demo_sim = Ok raw.
Proof. split; [vm_compute; reflexivity|]. eexists. vm_compute. reflexivity. Qed.

(** The tuning word of a frame that was read from a file, loaded into a
    simulated frame and written again is lost. *)
Lemma C16_tuning_word_lost_refuted_proof : exists r d raw d' f1 f2, well_formed_drx r /\ r_word r <> 0 /\
    read_drx (mkFile (drx_bytes r) 0) = (f1, Got d) /\ d_tune d = r_word r /\
    create_raw_frame (load_frame d) = Ok raw /\
    read_drx (mkFile raw 0) = (f2, Got d') /\ d_tune d' = 0.
Proof.
  set (r := other_beam 3).
  assert (W : well_formed_drx r) by (apply other_beam_wf; lia).
  assert (HR : create_raw_frame (load_frame (frame_of false r)) = Ok (drx_bytes (sim_record (load_frame (frame_of false r))
     (Cplx (map (fun s => (inject_Z (fst s), inject_Z (snd s))) (pairs (d_data (frame_of false r)))))))).
  { rewrite <- frame_to_frame_bytes. unfold create_raw_frame.
    replace (sim_is_valid true (load_frame (frame_of false r))) with (@Ok bool true) by (vm_compute; reflexivity).
    change (s_data (load_frame (frame_of false r))) with
      (Some (Cplx (map (fun s => (inject_Z (fst s), inject_Z (snd s))) (pairs (d_data (frame_of false r)))))).
    cbn [bind]. cbn [payload_len]. rewrite zlen_map.
    replace (zlen (pairs (d_data (frame_of false r)))) with 4096 by (vm_compute; reflexivity). reflexivity. }
  exists r, (frame_of false r). eexists. eexists. eexists. eexists.
  split; auto. split; [cbn; lia|].
  split; [pose proof (read_drx_ok [] [] r W) as H; cbn [app] in H; rewrite app_nil_r in H; exact H|].
  split; [reflexivity|]. split; [exact HR|].
  match goal with |- context [drx_bytes ?x] => assert (W' : well_formed_drx x) end.
  { refine (proj1 (sim_read_back _ _ _ HR eq_refl _ _ _ _)); cbn; lia. }
  split; [pose proof (read_drx_ok [] [] _ W') as H; cbn [app] in H; rewrite app_nil_r in H; exact H|]. reflexivity.
Qed.

(** create_raw_frame ignores a False answer of is_valid: a frame with an
    unreasonable time offset is written (with the offset truncated to 16 bits). *)
Lemma C16_invalid_offset_written_refuted_proof : exists s raw d f',
  sim_is_valid false s = Ok false /\ create_raw_frame s = Ok raw /\
  read_drx (mkFile raw 0) = (f', Got d) /\ d_toff d <> s_toff s.
Proof.
  exists (mkSim 1 1 0 10 196000001 0 5 0 (Some (Ci8 (repeat (1, 1) (Z.to_nat 4096))))).
  eexists _, _, _. split; [vm_compute; reflexivity|]. split; [vm_compute; reflexivity|]. split; [vm_compute; reflexivity|].
  vm_compute. congruence.
Qed.
(** Beams outside 1-4 are accepted when their low three bits are in 1-4, and
    are written under another beam number. *)
Lemma C16_wrong_beam_accepted_refuted_proof : exists s, s_beam s = 9 /\ sim_is_valid true s = Ok true /\
  exists raw d f', create_raw_frame s = Ok raw /\ read_drx (mkFile raw 0) = (f', Got d) /\
    fst (fst (drx_id_tuple (d_id d))) = 1.
Proof.
  exists (mkSim 9 1 0 10 0 0 5 0 (Some (Ci8 (repeat (1, 1) (Z.to_nat 4096))))).
  split; [reflexivity|]. split; [vm_compute; reflexivity|].
  eexists _, _, _. split; [vm_compute; reflexivity|]. split; [vm_compute; reflexivity|]. vm_compute. reflexivity.
Qed.

(** ** C45: describing a stream *)
(** get_beam_count returns the number of distinct beams among the first 32
    frames and leaves the file as it was. *)
Lemma C45_beam_count_proof : forall rs before tail, Forall well_formed_drx rs -> (32 <= length rs)%nat ->
  let f := mkFile (before ++ flat_map drx_bytes rs ++ tail) (zlen before) in
  beam_count read_drx f = (f, Ok (zlen (nodup Z.eq_dec (map r_beam (firstn 32 rs))))).
Proof.
  intros rs before tail HW HL f. unfold beam_count, f.
  rewrite (first_frames_stream 4128 read_drx drx_bytes (frame_of false) well_formed_drx read_drx_ok wf_len 32 rs before tail HW HL).
  cbn [bind]. f_equal. f_equal.
  assert (HE : fold_left (fun beams d => add_new (Z.land (d_id d) 7) beams) (map (frame_of false) (firstn 32 rs)) [] =
               fold_left (fun b x => add_new x b) (map r_beam (firstn 32 rs)) []).
  { generalize (@nil Z). clear HL. rewrite <- (firstn_skipn 32 rs) in HW. apply Forall_app in HW. destruct HW as [HW _].
    induction HW as [|r l Hr HW IH]; intro acc; [reflexivity|]. cbn [map fold_left]. rewrite IH.
    assert (HB : Z.land (d_id (frame_of false r)) 7 = r_beam r).
    { destruct Hr as (W1 & W2 & W3 & _).
      destruct (id_tuple_roundtrip false _ _ _ W1 W2 W3) as [I1 _]. exact (f_equal (fun x => fst (fst x)) I1). }
    rewrite HB. reflexivity. }
  rewrite HE. apply distinct_count.
  - apply NoDup_nodup.
  - intro y. rewrite nodup_In. tauto.
Qed.
Lemma C45_beam_count_example_proof :
  Forall well_formed_drx (repeat demo_record 32) /\ length (repeat demo_record 32) = 32%nat.
Proof. split; [|reflexivity]. apply Forall_forall. intros x H. apply repeat_spec in H. subst. exact demo_wf. Qed.

Lemma obs_loop_spec : forall ids c0 c1 c2 c3, Forall (fun id => 1 <= Z.land id 7 <= 4) (map d_id ids) ->
  let sel k := filter (fun x => Z.land x 7 =? k) (map d_id ids) in
  let add l c := fold_left (fun b x => add_new x b) l c in
  obs_loop [c0; c1; c2; c3] ids = Ok [add (sel 1) c0; add (sel 2) c1; add (sel 3) c2; add (sel 4) c3].
Proof.
  induction ids as [|d r IH]; intros c0 c1 c2 c3 H; [reflexivity|].
  cbn [map] in H. inversion H as [|? ? Hd Hr]; subst. specialize (IH) as IH'. cbv zeta in *.
  cbn [obs_loop]. unfold obs_step, slot.
  destruct (Z.eqb_spec (Z.land (d_id d) 7) 0); [lia|]. destruct (Z.leb_spec (Z.land (d_id d) 7) 4); [|lia].
  cbn [bind map filter].
  assert (C : Z.land (d_id d) 7 = 1 \/ Z.land (d_id d) 7 = 2 \/ Z.land (d_id d) 7 = 3 \/ Z.land (d_id d) 7 = 4) by lia.
  destruct C as [C|[C|[C|C]]]; rewrite C;
    try change (Z.to_nat (1 - 1)) with 0%nat; try change (Z.to_nat (2 - 1)) with 1%nat;
    try change (Z.to_nat (3 - 1)) with 2%nat; try change (Z.to_nat (4 - 1)) with 3%nat;
    cbn [set_slot bind]; rewrite IH' by auto; reflexivity.
Qed.

(** get_frames_per_obs returns, for beams 1 to 4, the number of distinct
    identifiers (tuning/polarisation combinations) of that beam among the first
    32 frames, and leaves the file as it was. *)
Lemma C45_frames_per_obs_partial_proof : forall rs before tail, Forall well_formed_drx rs -> (32 <= length rs)%nat ->
  Forall (fun r => 1 <= r_beam r <= 4) (firstn 32 rs) ->
  let f := mkFile (before ++ flat_map drx_bytes rs ++ tail) (zlen before) in
  let of_beam k := nodup Z.eq_dec (map (id_byte false) (filter (fun r => r_beam r =? k) (firstn 32 rs))) in
  frames_per_obs read_drx f = (f, Ok [zlen (of_beam 1); zlen (of_beam 2); zlen (of_beam 3); zlen (of_beam 4)]).
Proof.
  intros rs before tail HW HL HB f of_beam. unfold frames_per_obs, f.
  rewrite (read_n_first 4128 read_drx drx_bytes (frame_of false) well_formed_drx read_drx_ok wf_len 32 rs before tail HW HL).
  unfold f_seek, f_tell. cbn [f_pos Z.eqb f_data]. pose proof (zlen_nonneg before).
  destruct (Z.ltb_spec (zlen before) 0); [lia|]. f_equal.
  rewrite <- (firstn_skipn 32 rs) in HW. apply Forall_app in HW. destruct HW as [HW _].
  unfold of_beam. clear of_beam. set (l := firstn 32 rs) in *. clearbody l. clear f HL rs.
  assert (HI : forall r, well_formed_drx r -> Z.land (id_byte false r) 7 = r_beam r).
  { intros r (W1 & W2 & W3 & _). destruct (id_tuple_roundtrip false _ _ _ W1 W2 W3) as [I1 _].
    exact (f_equal (fun x => fst (fst x)) I1). }
  assert (HM : map d_id (map (frame_of false) l) = map (id_byte false) l) by (rewrite map_map; reflexivity).
  rewrite obs_loop_spec; rewrite HM.
  2:{ apply Forall_forall. intros x Hx. apply in_map_iff in Hx. destruct Hx as (r & <- & Hr).
      rewrite Forall_forall in HW, HB. rewrite HI by auto. auto. }
  cbn [bind map].
  assert (HS : forall k, filter (fun x => Z.land x 7 =? k) (map (id_byte false) l) = map (id_byte false) (filter (fun r => r_beam r =? k) l)).
  { intro k. clear HM HB. induction HW as [|r l' Hr HW IH]; [reflexivity|]. cbn [map filter]. rewrite HI by auto.
    destruct (r_beam r =? k); cbn [map]; rewrite IH; auto. }
  rewrite !HS.
  assert (HC : forall x, zlen (fold_left (fun b y => add_new y b) x []) = zlen (nodup Z.eq_dec x)).
  { intro x. apply distinct_count; [apply NoDup_nodup|]. intro y. rewrite nodup_In. tauto. }
  rewrite !HC. reflexivity.
Qed.
Lemma C45_frames_per_obs_example_proof :
  Forall (fun r => 1 <= r_beam r <= 4) (firstn 32 (repeat demo_record 32)).
Proof. apply Forall_forall. intros x H. cbn [firstn repeat] in H. repeat destruct H as [<-|H]; try (cbn; lia); destruct H. Qed.

(** A well-formed stream of beam 5 makes get_frames_per_obs fail, and beam 0 is
    counted as beam 4. *)
Lemma C45_beam5_fails_refuted_proof : exists rs f, Forall well_formed_drx rs /\ length rs = 32%nat /\
  f = mkFile (flat_map drx_bytes rs) 0 /\ snd (frames_per_obs read_drx f) = Raise IndexError /\ snd (beam_count read_drx f) = Ok 1.
Proof.
  exists (repeat (other_beam 5) 32). eexists. split; [|split; [reflexivity|split; [reflexivity|]]].
  - apply Forall_forall. intros x H. apply repeat_spec in H. subst. apply other_beam_wf. lia.
  - assert (HW : Forall well_formed_drx (repeat (other_beam 5) 32)).
    { apply Forall_forall. intros x H. apply repeat_spec in H. subst. apply other_beam_wf. lia. }
    split.
    + unfold frames_per_obs.
      pose proof (read_n_first 4128 read_drx drx_bytes (frame_of false) well_formed_drx read_drx_ok wf_len 32 _ [] [] HW (le_n _)) as H.
      cbn [app] in H. rewrite app_nil_r in H. change (zlen (@nil Z)) with 0 in H. rewrite H. reflexivity.
    + pose proof (C45_beam_count_proof _ [] [] HW (le_n _)) as H. cbv zeta in H. cbn [app] in H. rewrite app_nil_r in H.
      change (zlen (@nil Z)) with 0 in H. rewrite H. reflexivity.
Qed.

(** Filter codes: defined exactly for the seven decimations, and inverse to the table. *)
Lemma C45_filter_code_proof : forall dec code, 0 <= dec < 65536 ->
  filter_code dec = Ok code <-> exists rate, In (code, rate) drx_filters /\ rate * dec = 196000000.
Proof.
  intros dec code H. unfold filter_code, fS. split.
  - destruct (Z.eqb_spec dec 0); [discriminate|].
    destruct (Z.eqb_spec (196000000 mod dec) 0) as [E|]; [|discriminate].
    destruct (find _ _) as [kv|] eqn:F; [|discriminate]. intro X. inversion X; subst. clear X.
    apply find_some in F. destruct F as [F1 F2]. apply Z.eqb_eq in F2.
    exists (snd kv). split; [destruct kv; exact F1|]. rewrite F2. pose proof (Z.div_mod 196000000 dec ltac:(lia)). lia.
  - intros (rate & HI & HR). cbn in HI.
    repeat destruct HI as [HI|HI]; try (destruct HI; fail); inversion HI; subst;
      match goal with HR : ?r * dec = _ |- _ => let d := fresh in
        assert (d : dec = 196000000 / r) by (rewrite <- HR, Z.mul_comm, Z.div_mul; lia); vm_compute in d; subst dec; reflexivity end.
Qed.
Lemma C45_filter_code_example_proof : filter_code 10 = Ok 7 /\ filter_code 784 = Ok 1 /\ filter_code 11 = Raise KeyError.
Proof. repeat split. Qed.
