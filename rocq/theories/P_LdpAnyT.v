From Coq Require Import List ZArith Bool Lia.
From Verif Require Import LibBytes M_LdpAny S_Drx S_Drspec S_Cor S_CorRun S_LdpReady S_LdpSpec S_LdpAny P_Drx P_Drspec P_LdpReady P_LdpReadyT P_LdpSpec P_LdpSpecT P_Cor P_Tbx P_CorDesc P_CorT P_LdpAny P_LdpAny2 P_LdpAny3.
Import ListNotations.
Open Scope Z_scope.

Lemma sync_drx : forall e r x, sync_at (header_bytes e r ++ x) 0.
Proof. intros. reflexivity. Qed.
Lemma sync_app : forall a b, sync_at (a ++ b) (zlen a) <-> sync_at b 0.
Proof. intros. unfold sync_at, slice. rewrite zdrop_app_exact, zdrop_0 by lia. tauto. Qed.
Lemma sync_tbx : forall r x, sync_at (tbx_bytes r ++ x) 0.
Proof. intros. reflexivity. Qed.
Lemma sync_cor : forall r x, sync_at (cor_bytes r ++ x) 0.
Proof. intros. reflexivity. Qed.
Lemma hit_at : forall size junk rest, zlen junk < size -> zlen junk + size <= zlen (junk ++ rest) -> sync_at rest 0 -> no_sync junk rest -> hit size (junk ++ rest) (zlen junk).
Proof.
  intros size junk rest H1 H2 H3 H4. pose proof (zlen_nonneg junk). split; [lia|]. split; [auto|]. split; [apply sync_app; auto|]. intros j Hj. apply H4. auto.
Qed.
Lemma hit_zero : forall size data, 0 < size <= zlen data -> sync_at data 0 -> hit size data 0.
Proof. intros size data H1 H2. split; [lia|]. split; [lia|]. split; [auto|]. intros; lia. Qed.

(** C75: a file that begins with at most 4127 bytes without a sync word and goes on with two DRX frames is opened as DRX,
    whatever follows and whatever was read before. *)
Lemma C75_drx_proof : forall c t junk r1 r2 rest, well_formed_drx r1 -> well_formed_drx r2 ->
  let data := junk ++ drx_bytes r1 ++ drx_bytes r2 ++ rest in
  bytes_ok data -> zlen junk < 4128 -> no_sync junk (drx_bytes r1 ++ drx_bytes r2 ++ rest) ->
  lwa_data_file c t (mkFile data 0) = (c, t, mkFile data 0, Ok DRX).
Proof.
  intros c t junk r1 r2 rest W1 W2 data B LJ NS. pose proof (drx_BL _ W1) as L1. pose proof (drx_BL _ W2) as L2. unfold drx_size in *.
  pose proof (zlen_nonneg rest). pose proof (zlen_nonneg junk).
  assert (HL : zlen data = zlen junk + (4128 + (4128 + zlen rest))) by (unfold data; rewrite !zlen_app, L1, L2; reflexivity).
  assert (HI : hit 4128 data (zlen junk)) by (apply hit_at; auto; [fold data; lia|reflexivity]).
  destruct (probe_hit 4128 fill4 ltac:(lia) data B _ HI) as (_ & G & _).
  refine (chain1 _ _ _ _ _ data c t (zlen junk + 2 * 4128) (Ok Found) _). change drx_size with 4128. change read_drx with (read_frame_gen 4128 fill4).
  rewrite G; [reflexivity|lia|]. unfold data. rewrite app_assoc. replace (zlen junk + 4128) with (zlen (junk ++ drx_bytes r1)) by (rewrite zlen_app; lia).
  apply sync_app. reflexivity.
Qed.
(** C75: likewise with at most 8223 bytes and two DRX8 frames, if 4128 bytes into the first frame, in its data, there is no sync word. *)
Lemma C75_drx8_proof : forall c t junk r1 r2 rest, well_formed_drx8 r1 -> well_formed_drx8 r2 ->
  let data := junk ++ drx8_bytes r1 ++ drx8_bytes r2 ++ rest in
  bytes_ok data -> zlen junk < 8224 -> no_sync junk (drx8_bytes r1 ++ drx8_bytes r2 ++ rest) -> ~ sync_at data (zlen junk + 4128) ->
  lwa_data_file c t (mkFile data 0) = (c, t, mkFile data 0, Ok DRX8).
Proof.
  intros c t junk r1 r2 rest W1 W2 data B LJ NS NA. pose proof (drx8_BL _ W1) as L1. pose proof (drx8_BL _ W2) as L2. unfold drx8_size in *.
  pose proof (zlen_nonneg rest). pose proof (zlen_nonneg junk).
  assert (HL : zlen data = zlen junk + (8224 + (8224 + zlen rest))) by (unfold data; rewrite !zlen_app, L1, L2; reflexivity).
  assert (HI : hit 8224 data (zlen junk)) by (apply hit_at; auto; [fold data; lia|reflexivity]).
  destruct (probe_hit 8224 fill8 ltac:(lia) data B _ HI) as (_ & G & _).
  refine (chain2 _ _ _ _ _ data c t (zlen junk + 2 * 8224) (Ok Found) _ _).
  - change drx_size with 4128. change read_drx with (read_frame_gen 4128 fill4). destruct (Z.lt_ge_cases (zlen junk) 4128) as [LT|GE].
    + assert (HD : hit 4128 data (zlen junk)) by (apply hit_at; auto; [fold data; lia|reflexivity]).
      destruct (probe_hit 4128 fill4 ltac:(lia) data B _ HD) as (_ & _ & G4). rewrite G4; auto. lia.
    + rewrite probe_none; [reflexivity|lia|auto|]. intros i Hi _. apply NS. lia.
  - change drx8_size with 8224. change read_drx8 with (read_frame_gen 8224 fill8).
    rewrite G; [reflexivity|lia|]. unfold data. rewrite app_assoc. replace (zlen junk + 8224) with (zlen (junk ++ drx8_bytes r1)) by (rewrite zlen_app; lia).
    apply sync_app. reflexivity.
Qed.
(** C75: a file of at least two DR spectrometer frames is opened as DRSpec if no DRX sync word is in its first 8224 bytes. *)
Lemma C75_drspec_proof : forall c t r1 r2 rest, drs_ok r1 -> drs_ok r2 ->
  let data := drs_bytes r1 ++ drs_bytes r2 ++ rest in
  bytes_ok data -> (forall i, 0 <= i < 8224 -> ~ sync_at data i) ->
  lwa_data_file c t (mkFile data 0) = (c, t, mkFile data 0, Ok DRSpec).
Proof.
  intros c t r1 r2 rest W1 W2 data B NS. destruct (probe_drspec_two r1 r2 rest W1 W2 B) as (p & Hp & E). fold data in E.
  refine (chain3 _ _ _ _ _ data c t p _ _ _).
  - change drx_size with 4128. change read_drx with (read_frame_gen 4128 fill4). rewrite probe_none; [reflexivity|lia|auto|]. intros i Hi _. apply NS. lia.
  - change drx8_size with 8224. change read_drx8 with (read_frame_gen 8224 fill8). rewrite probe_none; [reflexivity|lia|auto|]. intros i Hi _. apply NS. lia.
  - rewrite E. reflexivity.
Qed.

Lemma slice_split : forall i a b l, 0 <= i -> 0 <= a -> 0 <= b -> slice i (a + b) l = slice i a l ++ slice (i + a) b l.
Proof.
  intros i a b l Hi Ha Hb. unfold slice. rewrite (Z.add_comm i a), <- zdrop_zdrop by lia. generalize (zdrop i l). intro d.
  unfold ztake, zdrop. rewrite Z2Nat.inj_add by lia. rewrite <- (firstn_skipn (Z.to_nat a) d) at 1. 
  destruct (Nat.le_gt_cases (Z.to_nat a) (length d)) as [L|L].
  - replace (Z.to_nat a + Z.to_nat b)%nat with (length (firstn (Z.to_nat a) d) + Z.to_nat b)%nat by (rewrite firstn_length; lia).
    rewrite firstn_app_2. reflexivity.
  - rewrite (firstn_all2 d) by lia. rewrite skipn_all2 by lia. rewrite firstn_nil, !app_nil_r. apply firstn_all2. lia.
Qed.

(** Neither DRX nor DRX8 nor DR spectrometer. *)
Lemma not_others : forall data, bytes_ok data -> sync_at data 0 -> 16448 <= zlen data -> ~ sync_at data 4128 -> ~ sync_at data 8224 ->
  probe (plain read_drx) drx_size tt (mkFile data 0) = (tt, mkFile data 0, Ok NextMode) /\
  probe (plain read_drx8) drx8_size tt (mkFile data 0) = (tt, mkFile data 0, Ok NextMode) /\
  probe_drspec tt (mkFile data 0) = (tt, mkFile data 0, Ok NextMode).
Proof.
  intros data B S L N1 N2. split; [|split].
  - change drx_size with 4128. change read_drx with (read_frame_gen 4128 fill4).
    destruct (probe_hit 4128 fill4 ltac:(lia) data B 0 (hit_zero 4128 data ltac:(lia) S)) as (_ & _ & G). apply G; [lia|exact N1].
  - change drx8_size with 8224. change read_drx8 with (read_frame_gen 8224 fill8).
    destruct (probe_hit 8224 fill8 ltac:(lia) data B 0 (hit_zero 8224 data ltac:(lia) S)) as (_ & _ & G). apply G; [lia|exact N2].
  - apply probe_drspec_not; auto. intros [H _]. unfold sync_at in S. rewrite S in H. discriminate H.
Qed.
Lemma stray_not : forall size data i, no_stray size 8229 data -> 0 <= i < 8229 -> i mod size <> 0 -> ~ sync_at data i.
Proof. intros size data i NS Hi NM S. apply NM. apply NS; auto. Qed.

(** C75: a file of at least 16448 bytes that begins with two TBX frames is opened as TBX, after any history, if no sync word is
    in its first 8229 bytes but where frames begin. *)
Lemma C75_tbx_proof : forall c t ns nc r1 r2 rest, tbx_mode ns nc -> tbx_history t -> tbx_ok ns nc r1 -> tbx_ok ns nc r2 -> x_id r1 = 8 ->
  let data := tbx_bytes r1 ++ tbx_bytes r2 ++ rest in
  bytes_ok data -> 16448 <= zlen data -> no_stray (28 + 2 * ns * nc) 8229 data ->
  exists t', lwa_data_file c t (mkFile data 0) = (c, t', mkFile data 0, Ok TBX).
Proof.
  intros c t ns nc r1 r2 rest M HH W1 W2 ID data B HL NS.
  assert (A : forall i, i = 4128 \/ i = 8224 -> i mod (28 + 2 * ns * nc) <> 0).
  { intros i Hi. destruct M as [M1 M2]. simpl in M1, M2.
    destruct M1 as [<-|[<-|[<-|[]]]]; destruct M2 as [<-|[<-|[<-|[<-|[]]]]]; destruct Hi as [-> | ->]; vm_compute; discriminate. }
  destruct (not_others data B (sync_tbx _ _) HL (stray_not _ data 4128 NS ltac:(lia) (A 4128 (or_introl eq_refl))) (stray_not _ data 8224 NS ltac:(lia) (A 8224 (or_intror eq_refl)))) as (E1 & E2 & E3).
  destruct (tbx_found ns nc t r1 r2 rest M (tbx_history_coherent _ HH) W1 W2 ID) as (t' & p & E4 & _); [fold data; clear - HL; lia|]. fold data in E4.
  exists t'. refine (chain4 _ _ _ _ _ data c t p t' (Ok Found) _ _ _ _).
  - rewrite E1. reflexivity.
  - rewrite E2. reflexivity.
  - rewrite E3. reflexivity.
  - exact E4.
Qed.
(** C75: likewise for COR, in a history that has not left the reader expecting fewer channels, if all time tags in the first 2500
    bytes are after 1993 (2^57 ticks). *)
Lemma C75_cor_proof : forall c t n r1 r2 rest, In n cor_modes -> cor_history c -> n <= assumed_nchan c -> tbx_history t ->
  cor_ok n r1 -> unambiguous r1 -> cor_ok n r2 -> unambiguous r2 -> k_id r1 = 2 \/ k_id r1 = 6 ->
  let data := cor_bytes r1 ++ cor_bytes r2 ++ rest in
  bytes_ok data -> 16448 <= zlen data -> no_stray (32 + 32 * n) 8229 data ->
  (forall i, 0 <= i < 2500 -> i mod (32 + 32 * n) = 0 -> 2 ^ 57 <= be_val (slice (i + 16) 8 data)) ->
  exists c' t', lwa_data_file c t (mkFile data 0) = (c', t', mkFile data 0, Ok COR).
Proof.
  intros c t n r1 r2 rest M HC HN HT W1 U1 W2 U2 ID data B HL NS TT.
  assert (A : forall i, i = 4128 \/ i = 8224 -> i mod (32 + 32 * n) <> 0).
  { intros i Hi. apply mode_cases in M. destruct M as [-> |[-> |[-> | ->]]]; destruct Hi as [-> | ->]; vm_compute; discriminate. }
  destruct (not_others data B (sync_cor _ _) HL (stray_not _ data 4128 NS ltac:(lia) (A 4128 (or_introl eq_refl))) (stray_not _ data 8224 NS ltac:(lia) (A 8224 (or_intror eq_refl)))) as (E1 & E2 & E3).
  destruct (cor_found n c r1 r2 rest M (cor_history_coherent _ HC) HN W1 U1 W2 U2 ID) as (c' & p & E5 & _); [fold data; clear - HL; lia|]. fold data in E5.
  assert (NT : forall i, 0 <= i < 2500 -> ~ tbx_at data i).
  { intros i Hi [S TM]. assert (H0 : i mod (32 + 32 * n) = 0) by (apply NS; [lia|exact S]). specialize (TT i Hi H0).
    assert (LS : forall k n, 0 <= k <= 24 -> 0 <= n <= 24 -> zlen (slice (i + k) n data) = n) by (intros; apply slice_zlen; clear - HL Hi H H1; lia).
    change 8 with (2 + (2 + 4)) in TT. rewrite !slice_split in TT by lia. rewrite !be_val_app, !zlen_app in TT.
    replace (i + 16 + 2) with (i + 18) in TT by lia. replace (i + 18 + 2) with (i + 20) in TT by lia. rewrite !LS in TT by lia.
    pose proof (be_val_bound (slice (i + 18) 2 data) (slice_ok _ _ _ B)) as B2. pose proof (be_val_bound (slice (i + 20) 4 data) (slice_ok _ _ _ B)) as B3.
    rewrite LS in B2, B3 by lia. change (256 ^ 2) with 65536 in *. change (256 ^ 4) with 4294967296 in *. change (256 ^ (2 + 4)) with 281474976710656 in *.
    change (2 ^ 57) with 144115188075855872 in TT. destruct TM as [TM _]. clear - TT B2 B3 TM. simpl in TM.
    destruct TM as [E|[E|[E|[]]]]; rewrite <- E in TT; lia. }
  destruct (probe_size0 read_tbx is_tbx tc_coherent data (tbx_at data)) with (st := t) as (t' & _ & E4); [|apply tbx_history_coherent; auto|exact NT|].
  { intros st p' st' f' r C Hp E. destruct (tbx_read_at data _ _ _ _ _ B C Hp E) as (A1 & A2 & A3 & A4). split; [auto|]. split; [auto|]. split; [auto|]. destruct r; auto. }
  exists c', t'. refine (chain5 _ _ _ _ _ data c t p t' c' _ _ _ _ _).
  - rewrite E1. reflexivity.
  - rewrite E2. reflexivity.
  - rewrite E3. reflexivity.
  - exact E4.
  - exact E5.
Qed.

(** C75: whatever the file holds and whatever was read before, opening a file leaves its bytes alone; if a format is found, or none,
    the file is at its beginning again; a DRX file has two sync words one frame apart in the right place, a DRX8 file too, the other formats have
    their header at the first byte; the only other exception is OSError. *)
Lemma C75_answer_proof : forall c t data c' t' f' r, cor_history c -> tbx_history t -> bytes_ok data ->
  lwa_data_file c t (mkFile data 0) = (c', t', f', r) ->
  f_data f' = data /\ ((exists m, r = Ok m) \/ r = Raise RuntimeError -> f_pos f' = 0) /\
  match r with
  | Ok DRX => exists i, 0 <= i < 4128 /\ i + 2 * 4128 <= zlen data /\ sync_at data i /\ sync_at data (i + 4128)
  | Ok DRX8 => exists i, 0 <= i < 8224 /\ i + 2 * 8224 <= zlen data /\ sync_at data i /\ sync_at data (i + 8224)
  | Ok DRSpec => header_at data 0
  | Ok TBX => tbx_at data 0
  | Ok COR => sync_at data 0
  | Raise e => e = RuntimeError \/ e = OSError
  end.
Proof.
  intros c t data c' t' f' r HC HT B H.
  pose (forget := fun x : unit * file * res verdict => (snd (fst x), snd x)).
  assert (X := fun H1 H2 H3 H4 H5 => chain_all (fun f => forget (probe (plain read_drx) drx_size tt f)) (fun f => forget (probe (plain read_drx8) drx8_size tt f))
            (fun f => forget (probe_sized (plain read_drspec) (fun u f => let '(f1, r) := drs_frame_size f in (u, f1, r)) tt f))
            (probe_sized read_tbx (frame_size read_tbx is_tbx)) (probe_sized read_cor (frame_size read_cor is_cor)) data c t
            (exists i, 0 <= i < 4128 /\ i + 2 * 4128 <= zlen data /\ sync_at data i /\ sync_at data (i + 4128))
            (exists i, 0 <= i < 8224 /\ i + 2 * 8224 <= zlen data /\ sync_at data i /\ sync_at data (i + 8224))
            (header_at data 0) (tbx_at data 0) (sync_at data 0) tc_coherent cc_coherent H1 H2 H3 H4 H5 (tbx_history_coherent _ HT) (cor_history_coherent _ HC) c' t' f' r H).
  destruct X as (_ & _ & D & P & V); [exact (gen_outcome 4128 fill4 data ltac:(lia) B)|exact (gen_outcome 8224 fill8 data ltac:(lia) B)|exact (drspec_outcome data B)| | |split; [exact D|split; [exact P|exact V]]].
  - intros t0 t1 f v I E.
    destruct (probe_sized_keeps read_tbx is_tbx tc_coherent data (tbx_at data)) with (st := t0) (st' := t1) (f' := f) (v := v) as (I' & D & P & O); [|exact I|exact E|split; [split; [exact D|split; [exact P|exact O]]|exact I']].
    intros st p' st' g r0 C Hp E0. destruct (tbx_read_at data _ _ _ _ _ B C Hp E0) as (A1 & A2 & A3 & A4). split; [auto|]. split; [auto|]. split; [auto|]. destruct r0; auto.
  - intros t0 t1 f v I E.
    destruct (probe_sized_keeps read_cor is_cor cc_coherent data (sync_at data)) with (st := t0) (st' := t1) (f' := f) (v := v) as (I' & D & P & O); [|exact I|exact E|split; [split; [exact D|split; [exact P|exact O]]|exact I']].
    intros st p' st' g r0 C Hp E0. destruct (cor_read_at data _ _ _ _ _ B C Hp E0) as (A1 & A2 & A3 & A4). split; [auto|]. split; [auto|]. split; [auto|]. destruct r0; auto.
Qed.

(** ** What goes wrong *)
(** C75 refuted: a file that begins with a sync word, as those of all formats but DR spectrometer do, has none at byte 4128 and is shorter than
    16448 bytes is not recognised, whatever it holds; up to 30 TBX frames of 64 stands and 4 channels, or 15 COR frames of
    33 channels, or one DRX8 frame, are such a file. *)
Lemma C75_short_refuted_proof : forall c t data, bytes_ok data -> sync_at data 0 -> ~ sync_at data 4128 -> 4128 <= zlen data < 16448 ->
  lwa_data_file c t (mkFile data 0) = (c, t, mkFile data 0, Raise RuntimeError).
Proof.
  intros c t data B S N HL. destruct (probe_hit 4128 fill4 ltac:(lia) data B 0 (hit_zero 4128 data ltac:(lia) S)) as (G1 & _ & G3).
  destruct (Z.lt_ge_cases (zlen data) 8256) as [L|L].
  - destruct G1 as (q & Hq & E); [lia|]. refine (chain1 _ _ _ _ _ data c t q (Ok GaveUp) _).
    change drx_size with 4128. change read_drx with (read_frame_gen 4128 fill4). rewrite E. reflexivity.
  - destruct (probe_hit 8224 fill8 ltac:(lia) data B 0 (hit_zero 8224 data ltac:(lia) S)) as (K1 & _ & _).
    destruct K1 as (q & Hq & E); [lia|]. refine (chain2 _ _ _ _ _ data c t q (Ok GaveUp) _ _).
    + change drx_size with 4128. change read_drx with (read_frame_gen 4128 fill4). rewrite G3; [reflexivity|lia|exact N].
    + change drx8_size with 8224. change read_drx8 with (read_frame_gen 8224 fill8). rewrite E. reflexivity.
Qed.
(** C75 refuted: a DRX8 file whose first frame has the sync word where a DRX frame would end is opened as DRX. *)
Lemma C75_imitated_refuted_proof : forall c t r1 r2 rest, well_formed_drx8 r1 -> well_formed_drx8 r2 ->
  let data := drx8_bytes r1 ++ drx8_bytes r2 ++ rest in
  bytes_ok data -> sync_at data 4128 -> lwa_data_file c t (mkFile data 0) = (c, t, mkFile data 0, Ok DRX).
Proof.
  intros c t r1 r2 rest W1 W2 data B S. pose proof (drx8_BL _ W1) as L1. pose proof (drx8_BL _ W2) as L2. unfold drx8_size in *. pose proof (zlen_nonneg rest).
  assert (HL : zlen data = 8224 + (8224 + zlen rest)) by (unfold data; rewrite !zlen_app, L1, L2; reflexivity).
  destruct (probe_hit 4128 fill4 ltac:(lia) data B 0 (hit_zero 4128 data ltac:(lia) eq_refl)) as (_ & G & _).
  refine (chain1 _ _ _ _ _ data c t (0 + 2 * 4128) (Ok Found) _). change drx_size with 4128. change read_drx with (read_frame_gen 4128 fill4).
  rewrite G; [reflexivity|lia|exact S].
Qed.
(** C75 refuted: a TBX recording that starts within a frame, like one DRX copes with, makes the search step before the
    beginning of the file: OSError. *)
Lemma C75_damaged_start_refuted_proof : forall c t ns nc junk r1 rest, tbx_mode ns nc -> tbx_history t -> tbx_ok ns nc r1 -> x_id r1 = 8 ->
  let data := junk ++ tbx_bytes r1 ++ rest in
  bytes_ok data -> 0 < zlen junk < 2500 -> no_sync junk (tbx_bytes r1 ++ rest) -> zlen junk + 16448 <= zlen data -> ~ header_at data 0 ->
  ~ sync_at data (zlen junk + 4128) -> ~ sync_at data (zlen junk + 8224) ->
  exists t', lwa_data_file c t (mkFile data 0) = (c, t', mkFile data 0, Raise OSError).
Proof.
  intros c t ns nc junk r1 rest M HT W ID data B HJ NS HL NH N1 N2.
  assert (HI : hit 4128 data (zlen junk)) by (apply hit_at; auto; [lia|fold data; clear - HL; lia|reflexivity]).
  assert (HI8 : hit 8224 data (zlen junk)) by (apply hit_at; auto; [lia|fold data; clear - HL; lia|reflexivity]).
  destruct (probe_hit 4128 fill4 ltac:(lia) data B _ HI) as (_ & _ & G4). destruct (probe_hit 8224 fill8 ltac:(lia) data B _ HI8) as (_ & _ & G8).
  destruct (tbx_stuck ns nc t junk r1 rest M (tbx_history_coherent _ HT) W ID B HJ NS) as (t' & _ & E4); [fold data; clear - HL; lia|]. fold data in E4.
  exists t'. refine (chain4 _ _ _ _ _ data c t 0 t' (Raise OSError) _ _ _ E4).
  - change drx_size with 4128. change read_drx with (read_frame_gen 4128 fill4). rewrite G4; [reflexivity|clear - HL; lia|exact N1].
  - change drx8_size with 8224. change read_drx8 with (read_frame_gen 8224 fill8). rewrite G8; [reflexivity|clear - HL; lia|exact N2].
  - rewrite probe_drspec_not; [reflexivity|auto|exact NH].
Qed.
(** C75 refuted: a DR spectrometer recording with anything before its first frame is not opened as one, although DRSpecFile itself copes with that (C74). *)
Lemma C75_drspec_damaged_refuted_proof : forall c t junk r0 rs c' t' f', cor_history c -> tbx_history t -> recording r0 rs ->
  let data := junk ++ flat_map drs_bytes (r0 :: rs) in
  bytes_ok data -> junk <> [] -> no_header junk (flat_map drs_bytes (r0 :: rs)) ->
  lwa_data_file c t (mkFile data 0) <> (c', t', f', Ok DRSpec).
Proof.
  intros c t junk r0 rs c' t' f' HC HT R data B NJ NH H. destruct (C75_answer_proof _ _ _ _ _ _ _ HC HT B H) as (_ & _ & V).
  apply (NH 0); [|exact V]. destruct junk; [congruence|]. rewrite zlen_cons. pose proof (zlen_nonneg junk). lia.
Qed.

(** ** Examples *)
(** All places of the sync word. *)
Fixpoint sync_list (i : Z) (l : list Z) : list Z :=
  match l with
  | [] => []
  | b :: r => if list_eq_dec Z.eq_dec (firstn 4 l) [222; 192; 222; 92] then i :: sync_list (i + 1) r else sync_list (i + 1) r
  end.
Lemma sync_listed : forall l i k, 0 <= k -> sync_at l k -> In (i + k) (sync_list i l).
Proof.
  unfold sync_at. induction l as [|b r IH]; intros i k Hk S; [unfold slice, ztake, zdrop in S; rewrite skipn_nil in S; discriminate S|].
  cbn [sync_list]. destruct (Z.eq_dec k 0) as [->|N].
  - unfold slice, ztake, zdrop in S. change (Z.to_nat 4) with 4%nat in S. change (Z.to_nat 0) with 0%nat in S. cbn [skipn] in S.
    destruct (list_eq_dec Z.eq_dec (firstn 4 (b :: r)) [222; 192; 222; 92]) as [_|X]; [left; lia|contradiction].
  - assert (T : In (i + 1 + (k - 1)) (sync_list (i + 1) r)).
    { apply IH; [lia|]. unfold slice, zdrop in S |- *. replace (Z.to_nat k) with (Datatypes.S (Z.to_nat (k - 1))) in S by lia. exact S. }
    replace (i + k) with (i + 1 + (k - 1)) by lia. destruct (list_eq_dec Z.eq_dec (firstn 4 (b :: r)) [222; 192; 222; 92]); [right|]; exact T.
Qed.
Lemma no_stray_check : forall size n data, forallb (fun i => i mod size =? 0) (sync_list 0 data) = true -> no_stray size n data.
Proof.
  intros size n data F i Hi S. pose proof (sync_listed data 0 i ltac:(lia) S) as H. rewrite forallb_forall in F. specialize (F _ H). cbv beta in F.
  apply Z.eqb_eq in F. exact F.
Qed.
Lemma bytes_check : forall l, forallb (fun b => (0 <=? b) && (b <? 256)) l = true -> bytes_ok l.
Proof. intros l F. apply Forall_forall. intros x Hx. rewrite forallb_forall in F. specialize (F x Hx). unfold is_byte. lia. Qed.
Definition x8 (s : Z * Z) : recorded := mkRec 1 1 0 0 0 10 0 61849368000000001 1 0 (repeat (1, -1) 2048 ++ [s; (-34, 92)] ++ repeat (0, 3) 2046).
Lemma x8_wf : forall s, -128 <= fst s <= 127 -> -128 <= snd s <= 127 -> well_formed_drx8 (x8 s).
Proof.
  intros s H1 H2. unfold well_formed_drx8, well_formed, x8. cbn [r_beam r_tune r_pol r_count r_secs r_dec r_toff r_tag r_word r_flags r_samples].
  do 10 (split; [lia|]). split; [vm_compute; reflexivity|]. apply Forall_app. split; [apply Forall_forall; intros x Hx; apply repeat_spec in Hx; rewrite Hx; unfold S_Drx.fits; cbn [fst snd]; lia|].
  apply Forall_app. split; [repeat constructor; cbn [fst snd]; lia|]. apply Forall_forall; intros x Hx; apply repeat_spec in Hx; rewrite Hx; unfold S_Drx.fits; cbn [fst snd]; lia.
Qed.

Lemma C75_drx_example_proof : let r := ex_r 61849368000000001 in well_formed_drx r /\ bytes_ok ([1; 2; 3; 4; 5] ++ drx_bytes r ++ drx_bytes r ++ [9; 9]) /\
  no_sync [1; 2; 3; 4; 5] (drx_bytes r ++ drx_bytes r ++ [9; 9]).
Proof.
  cbv zeta. split; [apply ex_wf; lia|]. split; [|apply no_sync_222; repeat constructor; lia]. apply bytes_ok_app. split; [repeat constructor; unfold is_byte; lia|].
  apply bytes_ok_app. split; [apply drx_bytes_ok|]. apply bytes_ok_app. split; [apply drx_bytes_ok|]. repeat constructor; unfold is_byte; lia.
Qed.
Lemma C75_drx8_example_proof : let r := x8 (5, 6) in well_formed_drx8 r /\ bytes_ok ([1; 2; 3; 4; 5] ++ drx8_bytes r ++ drx8_bytes r ++ [9; 9]) /\
  no_sync [1; 2; 3; 4; 5] (drx8_bytes r ++ drx8_bytes r ++ [9; 9]) /\ ~ sync_at ([1; 2; 3; 4; 5] ++ drx8_bytes r ++ drx8_bytes r ++ [9; 9]) (5 + 4128).
Proof.
  cbv zeta. assert (W : well_formed_drx8 (x8 (5, 6))) by (apply x8_wf; cbn [fst snd]; lia). split; [exact W|]. split; [|split; [apply no_sync_222; repeat constructor; lia|]].
  - apply bytes_ok_app. split; [repeat constructor; unfold is_byte; lia|].
    apply bytes_ok_app. split; [apply drx8_bytes_ok|]. apply bytes_ok_app. split; [apply drx8_bytes_ok|]. repeat constructor; unfold is_byte; lia.
  - unfold sync_at. vm_compute. discriminate.
Qed.
Lemma C75_drspec_example_proof : let data := drs_bytes (dm 0) ++ drs_bytes (dm 1) ++ [7] in drs_ok (dm 0) /\ drs_ok (dm 1) /\ bytes_ok data /\ (forall i, 0 <= i < 8224 -> ~ sync_at data i).
Proof.
  cbv zeta. split; [apply dm_good; cbn; lia|]. split; [apply dm_good; cbn; lia|]. split; [apply bytes_check; vm_compute; reflexivity|].
  intros i Hi S. pose proof (sync_listed _ 0 i ltac:(lia) S) as H. vm_compute in H. exact H.
Qed.
Lemma C75_tbx_example_proof : let r := demo_tbx 64 4 1200 in let data := tbx_bytes r ++ tbx_bytes r ++ flat_map tbx_bytes (repeat r 29) in
  tbx_mode 64 4 /\ tbx_history tbx_fresh /\ tbx_ok 64 4 r /\ x_id r = 8 /\ bytes_ok data /\ 16448 <= zlen data /\ no_stray (28 + 2 * 64 * 4) 8229 data.
Proof.
  cbv zeta. split; [split; simpl; tauto|]. split; [constructor|]. split; [apply (demo_tbx_ok 64 4 1200); lia|]. split; [reflexivity|].
  split; [apply bytes_check; vm_compute; reflexivity|]. split; [vm_compute; discriminate|]. apply no_stray_check. vm_compute. reflexivity.
Qed.
Lemma C75_cor_example_proof : let r := demo_cor 33 500 1 2 in let data := cor_bytes r ++ cor_bytes r ++ flat_map cor_bytes (repeat r 15) in
  In 33 cor_modes /\ cor_history cor_fresh /\ 33 <= assumed_nchan cor_fresh /\ cor_ok 33 r /\ unambiguous r /\ bytes_ok data /\ 16448 <= zlen data /\ no_stray (32 + 32 * 33) 8229 data /\
  (forall i, 0 <= i < 2500 -> i mod (32 + 32 * 33) = 0 -> 2 ^ 57 <= be_val (slice (i + 16) 8 data)).
Proof.
  cbv zeta. destruct (demo_cor_ok 33 500 1 2) as [W U]; [simpl; tauto|lia|lia|lia|].
  split; [simpl; tauto|]. split; [constructor|]. split; [vm_compute; discriminate|]. split; [exact W|]. split; [exact U|].
  split; [apply bytes_check; vm_compute; reflexivity|]. split; [vm_compute; discriminate|]. split; [apply no_stray_check; vm_compute; reflexivity|].
  intros i Hi M. assert (E : i = 0 \/ i = 1088 \/ i = 2176) by (pose proof (Z.div_mod i 1088 ltac:(lia)); change (32 + 32 * 33) with 1088 in M; pose proof (Z.div_lt_upper_bound i 1088 3 ltac:(lia) ltac:(lia)); pose proof (Z.div_pos i 1088 ltac:(lia) ltac:(lia)); lia).
  destruct E as [-> |[-> | ->]]; vm_compute; discriminate.
Qed.
Lemma C75_short_example_proof : let data := flat_map tbx_bytes (repeat (demo_tbx 64 4 1200) 30) in
  tbx_ok 64 4 (demo_tbx 64 4 1200) /\ bytes_ok data /\ sync_at data 0 /\ ~ sync_at data 4128 /\ 4128 <= zlen data < 16448.
Proof.
  cbv zeta. split; [apply (demo_tbx_ok 64 4 1200); lia|]. split; [apply bytes_check; vm_compute; reflexivity|]. split; [vm_compute; reflexivity|]. split; [unfold sync_at; vm_compute; discriminate|].
  vm_compute; split; [discriminate|reflexivity].
Qed.
Lemma C75_imitated_example_proof : let r := x8 (-34, -64) in well_formed_drx8 r /\ bytes_ok (drx8_bytes r ++ drx8_bytes r ++ []) /\ sync_at (drx8_bytes r ++ drx8_bytes r ++ []) 4128.
Proof.
  cbv zeta. assert (W : well_formed_drx8 (x8 (-34, -64))) by (apply x8_wf; cbn [fst snd]; lia). split; [exact W|]. split; [|vm_compute; reflexivity].
  apply bytes_ok_app. split; [apply drx8_bytes_ok|]. apply bytes_ok_app. split; [apply drx8_bytes_ok|constructor].
Qed.
Lemma C75_damaged_start_example_proof : let r := demo_tbx 64 4 1200 in let junk := repeat 7 100 in let rest := flat_map tbx_bytes (repeat r 31) in let data := junk ++ tbx_bytes r ++ rest in
  tbx_mode 64 4 /\ tbx_ok 64 4 r /\ x_id r = 8 /\ bytes_ok data /\ 0 < zlen junk < 2500 /\ no_sync junk (tbx_bytes r ++ rest) /\ zlen junk + 16448 <= zlen data /\ ~ header_at data 0 /\
  ~ sync_at data (zlen junk + 4128) /\ ~ sync_at data (zlen junk + 8224).
Proof.
  cbv zeta. split; [split; simpl; tauto|]. split; [apply (demo_tbx_ok 64 4 1200); lia|]. split; [reflexivity|]. split; [apply bytes_check; vm_compute; reflexivity|].
  split; [vm_compute; split; reflexivity|]. split; [apply no_sync_222; apply Forall_forall; intros x Hx; apply repeat_spec in Hx; subst; lia|].
  split; [vm_compute; discriminate|]. split; [intros [H _]; vm_compute in H; discriminate H|]. split; unfold sync_at; vm_compute; discriminate.
Qed.
Lemma C75_drspec_damaged_example_proof : recording (dm 0) [dm 1; dm 2; dm 3; dm 4] /\ bytes_ok ([1; 2; 3; 4; 5] ++ flat_map drs_bytes [dm 0; dm 1; dm 2; dm 3; dm 4]) /\
  no_header [1; 2; 3; 4; 5] (flat_map drs_bytes [dm 0; dm 1; dm 2; dm 3; dm 4]).
Proof. split; [exact dm_recording|]. split; [apply bytes_check; vm_compute; reflexivity|apply no_header_5]. Qed.
