(** Theorems about opening DRX and DRX8 files. *)
From Coq Require Import List ZArith Bool Lia.
From Verif Require Import M_LdpReady S_Drx S_LdpReady P_Drx P_LdpReady LibBytes LibList.
Import ListNotations.
Open Scope Z_scope.
Ltac Zify.zify_post_hook ::= Z.div_mod_to_equations.

(** [rs] starts with data, follows [junk] without a sync word, and is followed by [tail]. *)
Definition opens (bts : recorded -> list Z) (wf : recorded -> Prop) (junk : list Z) (r0 : recorded) (rs : list recorded) (tail : list Z) : Prop :=
  bytes_ok junk /\ bytes_ok tail /\ Forall wf (r0 :: rs) /\ starts_data r0 /\
  no_sync junk (concat (map bts (r0 :: rs)) ++ tail).
(** Wherever the file is longer than [mb] MiB, the frame looked ahead to is there and within 300 s. *)
Definition no_gap (size : Z) (total : Z) (r0 : recorded) (rs : list recorded) (mbs : list Z) : Prop :=
  forall mb, In mb mbs -> mb * 1048576 < total ->
    ahead size mb < zlen (r0 :: rs) /\ forall d, sample_time (znth d (ahead size mb) (r0 :: rs)) - sample_time r0 <= 300 * 196000000.

Lemma drx_bytes_ok : forall r, bytes_ok (drx_bytes r).
Proof.
  intro r. unfold drx_bytes, header_bytes. rewrite !bytes_ok_app. repeat split; try apply be_ok; [repeat constructor; unfold is_byte; lia|].
  induction (r_samples r) as [|s l IH]; cbn [flat_map]; [constructor|]. apply bytes_ok_app. split; [|auto]. constructor; [|constructor].
  pose proof (Z.mod_pos_bound (fst s) 16 ltac:(lia)). pose proof (Z.mod_pos_bound (snd s) 16 ltac:(lia)). unfold is_byte. clear IH. lia.
Qed.
Lemma drx8_bytes_ok : forall r, bytes_ok (drx8_bytes r).
Proof.
  intro r. unfold drx8_bytes, header_bytes. rewrite !bytes_ok_app. repeat split; try apply be_ok; [repeat constructor; unfold is_byte; lia|].
  induction (r_samples r) as [|s l IH]; cbn [flat_map]; [constructor|]. apply bytes_ok_app. split; [|auto].
  constructor; [|constructor; [|constructor]]; apply Z.mod_pos_bound; lia.
Qed.
Lemma bytes_concat : forall bts (rs : list recorded), (forall r, bytes_ok (bts r)) -> bytes_ok (concat (map bts rs)).
Proof. induction rs as [|r rs IH]; intro H; cbn [map concat]; [constructor|]. apply bytes_ok_app. auto. Qed.
Lemma all_ok : forall bts junk (rs : list recorded) tail, (forall r, bytes_ok (bts r)) -> bytes_ok junk -> bytes_ok tail -> bytes_ok (junk ++ concat (map bts rs) ++ tail).
Proof. intros. rewrite !bytes_ok_app. auto using bytes_concat. Qed.
Lemma drx_BL : forall r, well_formed (-8) 7 r -> zlen (drx_bytes r) = drx_size.
Proof. intros r W. apply drx_bytes_zlen. unfold well_formed in W. tauto. Qed.
Lemma drx8_BL : forall r, well_formed (-128) 127 r -> zlen (drx8_bytes r) = drx8_size.
Proof. intros r W. apply drx8_bytes_zlen. unfold well_formed in W. tauto. Qed.
Lemma drx_KD : forall r, well_formed (-8) 7 r -> is_drx (frame_of false r) = true.
Proof.
  intros r W. unfold is_drx. cbn [frame_of d_id]. rewrite (Z.land_ones _ 1) by lia. rewrite Z.shiftr_div_pow2 by lia.
  unfold well_formed in W. unfold id_byte. apply Z.eqb_eq. change (2 ^ 6) with 64. change (2 ^ 1) with 2. cbn [Z.b2z]. lia.
Qed.
Lemma drx8_KD : forall r, well_formed (-128) 127 r -> is_drx8 (frame_of true r) = true.
Proof.
  intros r W. unfold is_drx8. cbn [frame_of d_id]. rewrite (Z.land_ones _ 1) by lia. rewrite Z.shiftr_div_pow2 by lia.
  unfold well_formed in W. unfold id_byte. apply Z.eqb_eq. change (2 ^ 6) with 64. change (2 ^ 1) with 2. cbn [Z.b2z]. lia.
Qed.

(** C31: opening a DRX file of at least 32 frames, whatever bytes without a sync word come before the first
    and whatever comes after the last, leaves the reader on the first byte of the first frame. *)
Lemma C31_first_frame_proof : forall junk r0 rs tail, opens drx_bytes well_formed_drx junk r0 rs tail -> 32 <= zlen (r0 :: rs) ->
  let data := junk ++ concat (map drx_bytes (r0 :: rs)) ++ tail in
  no_gap 4128 (zlen data) r0 rs [1; 2; 4; 8; 16] ->
  ready_drx (mkFile data 0) = (mkFile data (zlen junk), Ok tt).
Proof.
  intros junk r0 rs tail (BJ & BT & F & SD & NS) L data NG.
  apply (ready_ok 4128 fill4 is_drx false (-8) 7 drx_bytes ltac:(lia) drx_BL read_drx_ok drx_KD); auto; apply all_ok; auto using drx_bytes_ok.
Qed.
(** C31: the same for DRX8. *)
Lemma C31_first_frame_drx8_proof : forall junk r0 rs tail, opens drx8_bytes well_formed_drx8 junk r0 rs tail -> 32 <= zlen (r0 :: rs) ->
  let data := junk ++ concat (map drx8_bytes (r0 :: rs)) ++ tail in
  no_gap 8224 (zlen data) r0 rs [1; 2; 4; 8; 16] ->
  ready_drx8 (mkFile data 0) = (mkFile data (zlen junk), Ok tt).
Proof.
  intros junk r0 rs tail (BJ & BT & F & SD & NS) L data NG.
  apply (ready_ok 8224 fill8 is_drx8 true (-128) 127 drx8_bytes ltac:(lia) drx8_BL read_drx8_ok drx8_KD); auto; apply all_ok; auto using drx8_bytes_ok.
Qed.
(** C31: with more than 300 s between the first frame and the one looked ahead to, reading starts at the
    latter; it is the first such checkpoint that counts. *)
Lemma C31_skips_old_data_proof : forall junk r0 rs tail pre mb post d, opens drx_bytes well_formed_drx junk r0 rs tail ->
  let data := junk ++ concat (map drx_bytes (r0 :: rs)) ++ tail in
  [1; 2; 4; 8; 16] = pre ++ mb :: post -> no_gap 4128 (zlen data) r0 rs pre ->
  mb * 1048576 < zlen data -> ahead 4128 mb + 32 <= zlen (r0 :: rs) ->
  300 * 196000000 < sample_time (znth d (ahead 4128 mb) (r0 :: rs)) - sample_time r0 ->
  ready_drx (mkFile data 0) = (mkFile data (zlen junk + ahead 4128 mb * 4128), Ok tt).
Proof.
  intros junk r0 rs tail pre mb post d (BJ & BT & F & SD & NS) data E NG L1 L2 L3.
  apply (ready_far 4128 fill4 is_drx false (-8) 7 drx_bytes ltac:(lia) drx_BL read_drx_ok drx_KD junk r0 rs tail pre mb post d); auto; apply all_ok; auto using drx_bytes_ok.
Qed.
(** C31: the same for DRX8. *)
Lemma C31_skips_old_data_drx8_proof : forall junk r0 rs tail pre mb post d, opens drx8_bytes well_formed_drx8 junk r0 rs tail ->
  let data := junk ++ concat (map drx8_bytes (r0 :: rs)) ++ tail in
  [1; 2; 4; 8; 16] = pre ++ mb :: post -> no_gap 8224 (zlen data) r0 rs pre ->
  mb * 1048576 < zlen data -> ahead 8224 mb + 32 <= zlen (r0 :: rs) ->
  300 * 196000000 < sample_time (znth d (ahead 8224 mb) (r0 :: rs)) - sample_time r0 ->
  ready_drx8 (mkFile data 0) = (mkFile data (zlen junk + ahead 8224 mb * 8224), Ok tt).
Proof.
  intros junk r0 rs tail pre mb post d (BJ & BT & F & SD & NS) data E NG L1 L2 L3.
  apply (ready_far 8224 fill8 is_drx8 true (-128) 127 drx8_bytes ltac:(lia) drx8_BL read_drx8_ok drx8_KD junk r0 rs tail pre mb post d); auto; apply all_ok; auto using drx8_bytes_ok.
Qed.
(** C31: a file without a sync word where a whole frame could start raises EOFError. *)
Lemma C31_no_data_proof : forall data, bytes_ok data ->
  (forall i, 0 <= i -> i + 4128 <= zlen data -> ~ sync_at data i) -> snd (ready_drx (mkFile data 0)) = Raise EOFError.
Proof.
  intros data B NS. unfold ready_drx, ready. cbn [f_data].
  destruct (align_none 4128 fill4 is_drx false (-8) 7 drx_bytes ltac:(lia) read_drx_ok (S (length data)) data 0 B NS) as [p E]; [lia|unfold zlen; lia|].
  change (read_frame_gen 4128 fill4) with read_drx in E. change drx_size with 4128. rewrite E. reflexivity.
Qed.
(** C31: the same for DRX8. *)
Lemma C31_no_data_drx8_proof : forall data, bytes_ok data ->
  (forall i, 0 <= i -> i + 8224 <= zlen data -> ~ sync_at data i) -> snd (ready_drx8 (mkFile data 0)) = Raise EOFError.
Proof.
  intros data B NS. unfold ready_drx8, ready. cbn [f_data].
  destruct (align_none 8224 fill8 is_drx8 true (-128) 127 drx8_bytes ltac:(lia) read_drx8_ok (S (length data)) data 0 B NS) as [p E]; [lia|unfold zlen; lia|].
  change (read_frame_gen 8224 fill8) with read_drx8 in E. change drx8_size with 8224. rewrite E. reflexivity.
Qed.
(** C31: a file whose size is between a checkpoint and the end of the frame there cannot be opened. *)
Lemma C31_unlucky_size_proof : forall junk r0 rs tail pre mb post, opens drx_bytes well_formed_drx junk r0 rs tail ->
  let data := junk ++ concat (map drx_bytes (r0 :: rs)) ++ tail in
  [1; 2; 4; 8; 16] = pre ++ mb :: post -> no_gap 4128 (zlen data) r0 rs pre ->
  mb * 1048576 < zlen data < zlen junk + (ahead 4128 mb + 1) * 4128 ->
  snd (ready_drx (mkFile data 0)) = Raise EOFError.
Proof.
  intros junk r0 rs tail pre mb post (BJ & BT & F & SD & NS) data E NG L.
  apply (ready_size 4128 fill4 is_drx false (-8) 7 drx_bytes ltac:(lia) drx_BL read_drx_ok drx_KD junk r0 rs tail pre mb post); auto; apply all_ok; auto using drx_bytes_ok.
Qed.
(** C31: the same for DRX8. *)
Lemma C31_unlucky_size_drx8_proof : forall junk r0 rs tail pre mb post, opens drx8_bytes well_formed_drx8 junk r0 rs tail ->
  let data := junk ++ concat (map drx8_bytes (r0 :: rs)) ++ tail in
  [1; 2; 4; 8; 16] = pre ++ mb :: post -> no_gap 8224 (zlen data) r0 rs pre ->
  mb * 1048576 < zlen data < zlen junk + (ahead 8224 mb + 1) * 8224 ->
  snd (ready_drx8 (mkFile data 0)) = Raise EOFError.
Proof.
  intros junk r0 rs tail pre mb post (BJ & BT & F & SD & NS) data E NG L.
  apply (ready_size 8224 fill8 is_drx8 true (-128) 127 drx8_bytes ltac:(lia) drx8_BL read_drx8_ok drx8_KD junk r0 rs tail pre mb post); auto; apply all_ok; auto using drx8_bytes_ok.
Qed.
(** C31: a file with fewer than 32 whole frames cannot be opened. *)
Lemma C31_short_file_proof : forall junk r0 rs tail, opens drx_bytes well_formed_drx junk r0 rs tail -> zlen tail < 4128 ->
  zlen (r0 :: rs) < 32 -> let data := junk ++ concat (map drx_bytes (r0 :: rs)) ++ tail in zlen data <= 1048576 ->
  snd (ready_drx (mkFile data 0)) = Raise EOFError.
Proof.
  intros junk r0 rs tail (BJ & BT & F & SD & NS) HT L data LS.
  apply (ready_short 4128 fill4 is_drx false (-8) 7 drx_bytes ltac:(lia) drx_BL read_drx_ok drx_KD junk r0 rs tail); auto; apply all_ok; auto using drx_bytes_ok.
Qed.

(** Examples: a beam recording of 300 equal frames behind 5 bytes of junk, and 32 frames alone. *)
Definition ex_r (t : Z) : recorded := mkRec 1 1 0 0 0 10 0 t 1 0 (repeat (1, -1) 4096).
Lemma zlen_repeat : forall A (x : A) n, zlen (repeat x n) = Z.of_nat n.
Proof. intros. unfold zlen. rewrite repeat_length. auto. Qed.
Lemma ex_wf : forall t, 0 <= t < 2 ^ 64 -> well_formed_drx (ex_r t).
Proof.
  intros t H. unfold well_formed_drx, well_formed, ex_r. cbn [r_beam r_tune r_pol r_count r_secs r_dec r_toff r_tag r_word r_flags r_samples].
  rewrite zlen_repeat. repeat split; try lia.
  apply Forall_forall. intros x Hx. apply repeat_spec in Hx. subst. unfold fits. cbn. lia.
Qed.

Lemma no_sync_222 : forall junk rest, Forall (fun b => b <> 222) junk -> no_sync junk rest.
Proof.
  intros junk rest F i Hi S. unfold sync_at in S. assert (X : znth 0 i (junk ++ rest) = 222).
  { assert (Y : znth 0 0 (slice i 4 (junk ++ rest)) = 222) by (rewrite S; reflexivity). rewrite <- Y.
    unfold slice. rewrite znth_ztake, znth_zdrop by lia. f_equal. }
  rewrite znth_app_l in X by lia. rewrite Forall_forall in F. apply (F (znth 0 i junk)); auto. apply znth_In. lia.
Qed.
Lemma ex_opens : forall n m, opens drx_bytes well_formed_drx [1; 2; 3; 4; 5] (ex_r 61849368000000001) (repeat (ex_r 61849368000000001) n ++ repeat (ex_r (61849368000000001 + 301 * 196000000)) m) [9; 9].
Proof.
  intros n m. split; [repeat constructor; unfold is_byte; lia|]. split; [repeat constructor; unfold is_byte; lia|]. split.
  { apply Forall_cons; [apply ex_wf; lia|]. apply Forall_app. split; apply Forall_forall; intros x Hx; apply repeat_spec in Hx; subst; apply ex_wf; lia. }
  split.
  { unfold starts_data, ex_r. cbn [r_dec r_tag]. lia. }
  apply no_sync_222. repeat constructor; lia.
Qed.
Lemma drx_len : forall rs, Forall well_formed_drx rs -> zlen (concat (map drx_bytes rs)) = 4128 * zlen rs.
Proof. induction 1 as [|r rs W F IH]; [reflexivity|]. cbn [map concat]. rewrite zlen_app, IH, zlen_cons, drx_BL by auto. unfold drx_size. lia. Qed.
Lemma ex_data_len : forall n m, zlen ([1; 2; 3; 4; 5] ++ concat (map drx_bytes (ex_r 61849368000000001 :: repeat (ex_r 61849368000000001) n ++ repeat (ex_r (61849368000000001 + 301 * 196000000)) m)) ++ [9; 9]) =
  7 + 4128 * (1 + Z.of_nat n + Z.of_nat m).
Proof.
  intros n m. rewrite !zlen_app. rewrite drx_len.
  - change (zlen [1; 2; 3; 4; 5]) with 5. change (zlen [9; 9]) with 2. rewrite zlen_cons, zlen_app, !zlen_repeat. lia.
  - destruct (ex_opens n m) as (_ & _ & F & _). exact F.
Qed.
Definition ex_rs (n m : nat) : list recorded := repeat (ex_r 61849368000000001) n ++ repeat (ex_r (61849368000000001 + 301 * 196000000)) m.
Lemma C31_first_frame_example_proof :
  let r0 := ex_r 61849368000000001 in let rs := ex_rs 299 0 in
  opens drx_bytes well_formed_drx [1; 2; 3; 4; 5] r0 rs [9; 9] /\ 32 <= zlen (r0 :: rs) /\
  1048576 < zlen ([1; 2; 3; 4; 5] ++ concat (map drx_bytes (r0 :: rs)) ++ [9; 9]) /\
  no_gap 4128 (zlen ([1; 2; 3; 4; 5] ++ concat (map drx_bytes (r0 :: rs)) ++ [9; 9])) r0 rs [1; 2; 4; 8; 16].
Proof.
  cbv zeta. unfold ex_rs. rewrite ex_data_len. split; [apply ex_opens|]. rewrite zlen_cons, zlen_app, !zlen_repeat.
  split; [lia|]. split; [lia|]. intros mb Hm L. cbn in Hm. assert (mb = 1) as -> by lia.
  rewrite zlen_cons, zlen_app, !zlen_repeat. change (ahead 4128 1) with 255. split; [lia|]. intro d. change (repeat (ex_r (61849368000000001 + 301 * 196000000)) 0) with (@nil recorded). rewrite app_nil_r.
  change (ex_r 61849368000000001 :: repeat (ex_r 61849368000000001) 299) with (repeat (ex_r 61849368000000001) 300).
  assert (I : In (znth d 255 (repeat (ex_r 61849368000000001) 300)) (repeat (ex_r 61849368000000001) 300)) by (apply znth_In; rewrite zlen_repeat; lia).
  apply repeat_spec in I. rewrite I. lia.
Qed.
Lemma C31_skips_old_data_example_proof :
  let r0 := ex_r 61849368000000001 in let rs := ex_rs 254 100 in
  opens drx_bytes well_formed_drx [1; 2; 3; 4; 5] r0 rs [9; 9] /\
  1048576 < zlen ([1; 2; 3; 4; 5] ++ concat (map drx_bytes (r0 :: rs)) ++ [9; 9]) /\ ahead 4128 1 + 32 <= zlen (r0 :: rs) /\
  forall d, 300 * 196000000 < sample_time (znth d (ahead 4128 1) (r0 :: rs)) - sample_time r0.
Proof.
  cbv zeta. unfold ex_rs. rewrite ex_data_len. split; [apply ex_opens|]. rewrite zlen_cons, zlen_app, !zlen_repeat.
  split; [lia|]. change (ahead 4128 1) with 255. split; [lia|]. intro d.
  rewrite app_comm_cons. change (ex_r 61849368000000001 :: repeat (ex_r 61849368000000001) 254) with (repeat (ex_r 61849368000000001) 255).
  rewrite znth_app_r by (rewrite zlen_repeat; lia). rewrite zlen_repeat.
  assert (I : In (znth d (255 - Z.of_nat 255) (repeat (ex_r (61849368000000001 + 301 * 196000000)) 100)) (repeat (ex_r (61849368000000001 + 301 * 196000000)) 100))
    by (apply znth_In; rewrite zlen_repeat; lia).
  apply repeat_spec in I. rewrite I. unfold sample_time, ex_r. cbn [r_tag r_toff]. lia.
Qed.
Lemma C31_no_data_example_proof : bytes_ok (repeat 7 5000) /\ (forall i, 0 <= i -> i + 4128 <= zlen (repeat 7 5000) -> ~ sync_at (repeat 7 5000) i).
Proof.
  split. { apply Forall_forall. intros x Hx. apply repeat_spec in Hx. subst. unfold is_byte. lia. }
  intros i H0 H. rewrite <- (app_nil_r (repeat 7 5000)). apply (no_sync_222 (repeat 7 5000) []); [|lia].
  apply Forall_forall. intros x Hx. apply repeat_spec in Hx. subst. lia.
Qed.
(** Refutation: not every recording of 32 or more frames can be opened; one of exactly 255 frames raises
    EOFError. *)
Lemma C31_any_recording_refuted_proof :
  ~ (forall junk r0 rs tail, opens drx_bytes well_formed_drx junk r0 rs tail -> 32 <= zlen (r0 :: rs) ->
       snd (ready_drx (mkFile (junk ++ concat (map drx_bytes (r0 :: rs)) ++ tail) 0)) = Ok tt).
Proof.
  intro H. specialize (H [1; 2; 3; 4; 5] (ex_r 61849368000000001) (ex_rs 254 0) [9; 9] (ex_opens 254 0)). unfold ex_rs in H.
  rewrite (C31_unlucky_size_proof [1; 2; 3; 4; 5] _ _ [9; 9] [] 1 [2; 4; 8; 16] (ex_opens 254 0) eq_refl) in H.
  - assert (X : 32 <= zlen (ex_r 61849368000000001 :: repeat (ex_r 61849368000000001) 254 ++ repeat (ex_r (61849368000000001 + 301 * 196000000)) 0)).
    { rewrite zlen_cons, zlen_app, !zlen_repeat. lia. }
    specialize (H X). discriminate H.
  - intros mb [].
  - rewrite ex_data_len. change (ahead 4128 1) with 255. change (zlen [1; 2; 3; 4; 5]) with 5. lia.
Qed.
Lemma C31_short_file_example_proof :
  opens drx_bytes well_formed_drx [1; 2; 3; 4; 5] (ex_r 61849368000000001) (ex_rs 30 0) [9; 9] /\ zlen (ex_r 61849368000000001 :: ex_rs 30 0) = 31 /\
  zlen ([1; 2; 3; 4; 5] ++ concat (map drx_bytes (ex_r 61849368000000001 :: ex_rs 30 0)) ++ [9; 9]) <= 1048576.
Proof.
  unfold ex_rs. rewrite ex_data_len. split; [apply ex_opens|]. rewrite zlen_cons, zlen_app, !zlen_repeat. lia.
Qed.

(** Refutation: bytes before the data that hold a frame header with decimation 0 make the reader jump over the
    first frame. *)
Definition bad_header : list Z := header_bytes false (mkRec 1 1 0 0 0 0 0 0 0 0 []).
Lemma bad_header_ok : bytes_ok bad_header.
Proof. unfold bad_header, header_bytes. rewrite !bytes_ok_app. repeat split; try apply be_ok. repeat constructor; unfold is_byte; lia. Qed.
Lemma bad_header_read : forall x rest, zlen x = 4096 -> exists d,
  read_drx (mkFile (bad_header ++ x ++ rest) 0) = (mkFile (bad_header ++ x ++ rest) 4128, Got d) /\ good_start is_drx d = false.
Proof.
  intros x rest L. unfold read_drx, read_frame_gen, drx_size. pose proof (zlen_nonneg rest).
  rewrite (raw_len 4128 fill4 false (-8) 7 drx_bytes ltac:(lia) read_drx_ok) by (try lia; rewrite !zlen_app; change (zlen bad_header) with 32; lia).
  assert (S : slice 0 4128 (bad_header ++ x ++ rest) = bad_header ++ x).
  { rewrite app_assoc. apply slice_app_exact; auto. rewrite zlen_app. change (zlen bad_header) with 32. lia. }
  rewrite S. rewrite zlen_app, L. change (zlen bad_header) with 32. cbn [Z.add Z.eqb Pos.eqb negb Pos.add].
  assert (V : valid_sync (bad_header ++ x) = true) by reflexivity. rewrite V. cbn [negb]. eexists. split; [reflexivity|].
  unfold good_start. assert (D : d_dec (parse 4128 fill4 (bad_header ++ x)) = 0) by reflexivity. rewrite D. rewrite andb_false_r. auto.
Qed.
Lemma C31_header_in_junk_refuted_proof :
  exists junk r0 rs, zlen junk = 32 /\ Forall well_formed_drx (r0 :: rs) /\ starts_data r0 /\ 32 <= zlen (r0 :: rs) /\
    (forall r, In r rs -> r = r0) /\
    ready_drx (mkFile (junk ++ concat (map drx_bytes (r0 :: rs))) 0) = (mkFile (junk ++ concat (map drx_bytes (r0 :: rs))) (zlen junk + 4128), Ok tt).
Proof.
  set (r0 := ex_r 61849368000000001). exists bad_header, r0, (repeat r0 40). split; [reflexivity|].
  assert (W : well_formed_drx r0) by (apply ex_wf; lia).
  assert (F : Forall well_formed_drx (r0 :: repeat r0 40)).
  { apply Forall_cons; auto. apply Forall_forall. intros x Hx. apply repeat_spec in Hx. subst. auto. }
  assert (SD : starts_data r0) by (unfold starts_data, r0, ex_r; cbn [r_dec r_tag]; lia).
  assert (P : zdrop 4096 (drx_bytes r0) = repeat 31 32) by reflexivity. clearbody r0.
  split; [auto|]. split; [auto|]. split; [rewrite zlen_cons, zlen_repeat; lia|]. split; [intros r Hr; apply repeat_spec in Hr; auto|].
  change (repeat r0 40) with (r0 :: repeat r0 39).
  assert (F2 : Forall well_formed_drx (r0 :: repeat r0 39)) by (inversion F; auto).
  set (rest := concat (map drx_bytes (repeat r0 39))).
  assert (ED : bad_header ++ concat (map drx_bytes (r0 :: r0 :: repeat r0 39)) = bad_header ++ drx_bytes r0 ++ drx_bytes r0 ++ rest) by reflexivity.
  assert (LB : zlen (drx_bytes r0) = 4128) by (apply drx_BL; auto).
  assert (EB : drx_bytes r0 = ztake 4096 (drx_bytes r0) ++ zdrop 4096 (drx_bytes r0)) by (symmetry; apply ztake_zdrop).
  assert (B0 : bytes_ok (bad_header ++ drx_bytes r0 ++ drx_bytes r0 ++ rest)).
  { apply bytes_ok_app. split; [apply bad_header_ok|]. apply bytes_ok_app. split; [apply drx_bytes_ok|].
    apply bytes_ok_app. split; [apply drx_bytes_ok|]. apply bytes_concat. apply drx_bytes_ok. }
  assert (ZP : zlen (zdrop 4096 (drx_bytes r0)) = 32) by (rewrite zlen_zdrop by lia; lia).
  assert (BH : exists d, read_drx (mkFile (bad_header ++ drx_bytes r0 ++ drx_bytes r0 ++ rest) 0) =
      (mkFile (bad_header ++ drx_bytes r0 ++ drx_bytes r0 ++ rest) 4128, Got d) /\ good_start is_drx d = false).
  { assert (E3 : drx_bytes r0 ++ drx_bytes r0 ++ rest = ztake 4096 (drx_bytes r0) ++ (zdrop 4096 (drx_bytes r0) ++ drx_bytes r0 ++ rest)).
    { rewrite (app_assoc (ztake 4096 (drx_bytes r0))), ztake_zdrop. reflexivity. }
    rewrite E3. apply bad_header_read. rewrite zlen_ztake by lia. lia. }
  assert (NS : no_sync (zdrop 4096 (drx_bytes r0)) (drx_bytes r0 ++ rest)).
  { apply no_sync_222. rewrite P.
    apply Forall_forall. intros x Hx. apply repeat_spec in Hx. subst. lia. }
  assert (AL := align_false_sync 4128 fill4 is_drx false (-8) 7 drx_bytes ltac:(lia) drx_BL read_drx_ok drx_KD
     bad_header (ztake 4096 (drx_bytes r0)) (zdrop 4096 (drx_bytes r0)) r0 r0 rest eq_refl B0 EB ZP BH W W SD NS).
  change (read_frame_gen 4128 fill4) with read_drx in AL.
  assert (E2 : bad_header ++ drx_bytes r0 ++ drx_bytes r0 ++ rest = (bad_header ++ drx_bytes r0) ++ concat (map drx_bytes (r0 :: repeat r0 39)) ++ []).
  { rewrite app_nil_r, <- app_assoc. reflexivity. }
  assert (PL : 4160 = zlen (bad_header ++ drx_bytes r0)) by (rewrite zlen_app, LB; reflexivity).
  assert (GC := gap_checks_near 4128 fill4 is_drx false (-8) 7 drx_bytes ltac:(lia) drx_BL read_drx_ok drx_KD (bad_header ++ drx_bytes r0) (r0 :: repeat r0 39) [] r0 [1; 2; 4; 8; 16] F2).
  change (read_frame_gen 4128 fill4) with read_drx in GC. unfold frames in GC.
  assert (RN := read_n_frames 4128 fill4 is_drx false (-8) 7 drx_bytes ltac:(lia) drx_BL read_drx_ok drx_KD 32 (bad_header ++ drx_bytes r0) (r0 :: repeat r0 39) [] 0 F2).
  destruct RN as [ds D]; [lia|rewrite zlen_cons, zlen_repeat; lia|].
  change (read_frame_gen 4128 fill4) with read_drx in D. unfold frames in D. rewrite Z.mul_0_l, Z.add_0_r in D.
  rewrite <- E2, <- PL in GC, D.
  change (32 + 4128) with 4160 in AL. unfold ready_drx, ready. change drx_size with 4128. change (zlen bad_header + 4128) with 4160. rewrite ED. cbn [f_data].
  rewrite AL. rewrite GC.
  - rewrite D. rewrite seek1 by lia. feq.
  - intros mb Hm. cbn in Hm. unfold ahead. repeat (destruct Hm as [<-|Hm]; [vm_compute; discriminate|]). contradiction.
  - intros mb Hm L. exfalso. unfold frames in L. rewrite zlen_app, <- PL, zlen_app, drx_len, zlen_cons, zlen_repeat in L by auto. change (zlen (@nil Z)) with 0 in L. cbn in Hm. lia.
Qed.
