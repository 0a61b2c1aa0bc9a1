(** Proofs about the DRX/DRX8 readers and the simulated frames. *)
From Coq Require Import List ZArith Lia Bool QArith Qround Lqa.
From Verif Require Import M_Drx M_SimDrx S_Drx.
Import ListNotations.
Open Scope Z_scope.
Ltac Zify.zify_post_hook ::= Z.div_mod_to_equations.

(** ** Look-up tables *)
Lemma drx_lut_hi : forall b, 0 <= b < 256 -> drx_lut b 0 = (b / 16 + 8) mod 16 - 8.
Proof.
  intros b H. apply Z.eqb_eq.
  exact (zseq_sweep (fun b => drx_lut b 0 =? (b / 16 + 8) mod 16 - 8) 0 256 eq_refl b H).
Qed.
Lemma drx_lut_lo : forall b, 0 <= b < 256 -> drx_lut b 1 = (b mod 16 + 8) mod 16 - 8.
Proof.
  intros b H. apply Z.eqb_eq.
  exact (zseq_sweep (fun b => drx_lut b 1 =? (b mod 16 + 8) mod 16 - 8) 0 256 eq_refl b H).
Qed.
Lemma drx8_lut_eq : forall b, 0 <= b < 256 -> drx8_lut b = (b + 128) mod 256 - 128.
Proof.
  intros b H. apply Z.eqb_eq.
  exact (zseq_sweep (fun b => drx8_lut b =? (b + 128) mod 256 - 128) 0 256 eq_refl b H).
Qed.

(** ** Fill loops *)
Fixpoint steps4 {A} (P : list A -> Prop) (H0 : P [])
  (H4 : forall a b c d r, P r -> P (a :: b :: c :: d :: r)) (l : list A) (n : nat) :
  length l = (4 * n)%nat -> P l.
Proof.
  destruct n as [|n]; intro H.
  - destruct l; [exact H0|discriminate H].
  - destruct l as [|a [|b [|c [|d l]]]]; try (exfalso; simpl in H; lia).
    apply H4. apply (steps4 A P H0 H4 l n). simpl in H. lia.
Defined.

Lemma fill4_eq : forall l n, length l = (4 * n)%nat -> fill4 l = flat_map (fun b => [drx_lut b 0; drx_lut b 1]) l.
Proof.
  intros l n. revert l.
  refine (fun l => steps4 (fun l => fill4 l = flat_map (fun b => [drx_lut b 0; drx_lut b 1]) l) eq_refl _ l n).
  intros a b c d r H. cbn [fill4 flat_map app]. rewrite H. reflexivity.
Qed.
Lemma fill8_eq : forall l n, length l = (8 * n)%nat -> fill8 l = map drx8_lut l.
Proof.
  intros l n. revert l. induction n as [|n IH]; intros l H.
  - destruct l; [reflexivity|discriminate H].
  - destruct l as [|a [|b [|c [|d [|e [|f [|g [|h l]]]]]]]]; try (exfalso; simpl in H; lia).
    cbn [fill8 map]. rewrite IH; auto. simpl in H. lia.
Qed.

(** ** Samples *)
Lemma drx_samples_decode : forall s n, length s = (4 * n)%nat -> Forall (fits (-8) 7) s ->
  fill4 (flat_map drx_sample s) = interleave s.
Proof.
  intros s n HL HF.
  assert (HL' : length (flat_map drx_sample s) = (4 * n)%nat).
  { rewrite <- HL. clear. induction s; simpl; auto. }
  rewrite (fill4_eq _ n HL'). clear HL HL'.
  induction HF as [|x s Hx HF IH]; [reflexivity|].
  cbn [flat_map drx_sample app interleave]. unfold interleave in IH. rewrite IH. unfold fits in Hx. destruct x as [re im]. cbn [fst snd] in *.
  rewrite drx_lut_hi, drx_lut_lo by lia. repeat f_equal; lia.
Qed.
Lemma drx8_samples_decode : forall s n, length s = (4 * n)%nat -> Forall (fits (-128) 127) s ->
  fill8 (flat_map drx8_sample s) = interleave s.
Proof.
  intros s n HL HF.
  assert (HL' : length (flat_map drx8_sample s) = (8 * n)%nat).
  { assert (length (flat_map drx8_sample s) = (2 * length s)%nat); [|lia]. clear. induction s; simpl in *; lia. }
  rewrite (fill8_eq _ n HL'). clear HL HL'.
  induction HF as [|x s Hx HF IH]; [reflexivity|].
  cbn [flat_map drx8_sample app interleave map]. unfold interleave in IH. rewrite IH. unfold fits in Hx. destruct x as [re im]. cbn [fst snd] in *.
  rewrite !drx8_lut_eq by lia. repeat f_equal; lia.
Qed.

(** ** Header *)
Ltac zl := rewrite ?zlen_app, ?be_zlen; reflexivity.

Lemma header_zlen : forall e r, zlen (header_bytes e r) = 32.
Proof. intros. unfold header_bytes. rewrite !zlen_app, !be_zlen. reflexivity. Qed.

Definition field (i n : Z) (raw : list Z) : list Z := slice i n raw.

Lemma header_fields : forall e r pay,
  let raw := header_bytes e r ++ pay in
  slice 0 4 raw = [222; 192; 222; 92] /\
  slice 4 4 raw = be 1 (id_byte e r) ++ be 3 (r_count r) /\
  slice 8 4 raw = be 4 (r_secs r) /\ slice 12 2 raw = be 2 (r_dec r) /\ slice 14 2 raw = be 2 (r_toff r) /\
  slice 16 8 raw = be 8 (r_tag r) /\ slice 24 4 raw = be 4 (r_word r) /\ slice 28 4 raw = be 4 (r_flags r) /\
  (forall n, n = zlen pay -> slice 32 n raw = pay).
Proof.
  intros e r pay raw. unfold raw, header_bytes. rewrite <- !app_assoc.
  set (s0 := [222; 192; 222; 92]). set (b0 := be 1 (id_byte e r)). set (b1 := be 3 (r_count r)).
  set (b2 := be 4 (r_secs r)). set (b3 := be 2 (r_dec r)). set (b4 := be 2 (r_toff r)).
  set (b5 := be 8 (r_tag r)). set (b6 := be 4 (r_word r)). set (b7 := be 4 (r_flags r)).
  assert (L0 : zlen s0 = 4) by reflexivity.
  assert (L1 : zlen b0 = 1) by apply be_zlen. assert (L2 : zlen b1 = 3) by apply be_zlen.
  assert (L3 : zlen b2 = 4) by apply be_zlen. assert (L4 : zlen b3 = 2) by apply be_zlen.
  assert (L5 : zlen b4 = 2) by apply be_zlen. assert (L6 : zlen b5 = 8) by apply be_zlen.
  assert (L7 : zlen b6 = 4) by apply be_zlen. assert (L8 : zlen b7 = 4) by apply be_zlen.
  clearbody s0 b0 b1 b2 b3 b4 b5 b6 b7.
  repeat split; try (intros n ->); unfold slice.
  all: repeat first [rewrite (zdrop_app_ge _ s0) by lia | rewrite (zdrop_app_ge _ b0) by lia | rewrite (zdrop_app_ge _ b1) by lia | rewrite (zdrop_app_ge _ b2) by lia | rewrite (zdrop_app_ge _ b3) by lia | rewrite (zdrop_app_ge _ b4) by lia | rewrite (zdrop_app_ge _ b5) by lia | rewrite (zdrop_app_ge _ b6) by lia | rewrite (zdrop_app_ge _ b7) by lia].
  all: rewrite zdrop_0 by lia.
  all: rewrite ?(ztake_app_ge _ b0) by lia.
  all: try (rewrite ztake_app_le by lia).
  all: rewrite ?ztake_all by lia; auto.
Qed.

Lemma id_byte_range : forall e r, 0 <= r_beam r < 8 -> 0 <= r_tune r < 8 -> 0 <= r_pol r < 2 -> 0 <= id_byte e r < 256.
Proof. intros e r H1 H2 H3. unfold id_byte. destruct e; lia. Qed.

Lemma bitfields : forall id count, 0 <= id < 256 -> 0 <= count < 2 ^ 24 ->
  let w := bswap 4 (le_val (be 1 id ++ be 3 count)) in
  Z.land w 16777215 = count /\ Z.shiftr w 24 = id.
Proof.
  intros id count H1 H2. cbv zeta. rewrite bswap_load.
  - rewrite be_val_app, !be_val_be, be_zlen. change (256 ^ Z.of_nat 3) with (2 ^ 24).
    change (256 ^ Z.of_nat 1) with 256. rewrite !Z.mod_small by lia.
    change 16777215 with (2 ^ 24 - 1). rewrite land_mask by lia.
    rewrite Z.shiftr_div_pow2 by lia. rewrite Z.add_comm, Z.mod_add, Z.div_add by lia.
    rewrite Z.mod_small, Z.div_small by lia. lia.
  - apply bytes_ok_app. split; apply be_ok.
  - rewrite zlen_app, !be_zlen. reflexivity.
Qed.

Lemma parse_header : forall fs fill e lo hi r pay, well_formed lo hi r -> zlen pay = fs - 32 ->
  parse fs fill (header_bytes e r ++ pay) =
    mkD (r_count r) (id_byte e r) (r_secs r) (r_dec r) (r_toff r) (r_tag r) (r_word r) (r_flags r) (fill pay) /\
  valid_sync (header_bytes e r ++ pay) = true.
Proof.
  intros fs fill e lo hi r pay W HL.
  destruct W as (W1 & W2 & W3 & W4 & W5 & W6 & W7 & W8 & W9 & W10 & _).
  destruct (header_fields e r pay) as (F0 & F1 & F2 & F3 & F4 & F5 & F6 & F7 & F8).
  unfold parse, valid_sync. rewrite F0, F1, F2, F3, F4, F5, F6, F7, F8 by lia.
  destruct (bitfields (id_byte e r) (r_count r) (id_byte_range e r W1 W2 W3) W4) as [B1 B2].
  rewrite B1, B2. rewrite !bswap_be by (cbn; lia). split; reflexivity.
Qed.

(** ** Reading at a position *)
Lemma read_at : forall a b c n, n = zlen b -> f_read n (mkFile (a ++ b ++ c) (zlen a)) = (mkFile (a ++ b ++ c) (zlen a + n), b).
Proof.
  intros a b c n ->. unfold f_read. cbn [f_data f_pos]. pose proof (zlen_nonneg b).
  destruct (Z.ltb_spec (zlen b) 0); [lia|]. rewrite zdrop_app_exact, ztake_app_exact. reflexivity.
Qed.

Lemma flat_map_len : forall (f : Z * Z -> list Z) k s, (forall x, zlen (f x) = k) -> zlen (flat_map f s) = k * zlen s.
Proof.
  intros f k s H. induction s as [|x s IH]; cbn [flat_map]; [cbn; lia|].
  rewrite zlen_app, IH, H, zlen_cons. lia.
Qed.

Lemma len4096 : forall (s : list (Z * Z)), zlen s = 4096 -> length s = (4 * Z.to_nat 1024)%nat.
Proof. intros s H. unfold zlen in H. lia. Qed.

(** The frame read back from a record. *)
Definition frame_of (e : bool) (r : recorded) : dframe :=
  mkD (r_count r) (id_byte e r) (r_secs r) (r_dec r) (r_toff r) (r_tag r) (r_word r) (r_flags r) (interleave (r_samples r)).

Lemma drx_bytes_zlen : forall r, zlen (r_samples r) = 4096 -> zlen (drx_bytes r) = 4128.
Proof.
  intros r H. unfold drx_bytes. rewrite zlen_app, header_zlen, (flat_map_len _ 1) by reflexivity. lia.
Qed.
Lemma drx8_bytes_zlen : forall r, zlen (r_samples r) = 4096 -> zlen (drx8_bytes r) = 8224.
Proof.
  intros r H. unfold drx8_bytes. rewrite zlen_app, header_zlen, (flat_map_len _ 2) by reflexivity. lia.
Qed.

Lemma read_drx_ok : forall a c r, well_formed_drx r ->
  read_drx (mkFile (a ++ drx_bytes r ++ c) (zlen a)) = (mkFile (a ++ drx_bytes r ++ c) (zlen a + 4128), Got (frame_of false r)).
Proof.
  intros a c r W. pose proof W as W'. destruct W' as (_ & _ & _ & _ & _ & _ & _ & _ & _ & _ & HL & HF).
  unfold read_drx, read_frame_gen. pose proof (drx_bytes_zlen r HL) as HZ.
  rewrite read_at by (unfold drx_size; lia). unfold drx_size at 1. rewrite HZ, Z.eqb_refl. cbn [negb].
  assert (HP : zlen (flat_map drx_sample (r_samples r)) = drx_size - 32).
  { rewrite (flat_map_len _ 1) by reflexivity. unfold drx_size. lia. }
  destruct (parse_header drx_size fill4 false _ _ r _ W HP) as [P1 P2].
  unfold drx_bytes at 1. rewrite P2. cbn [negb]. unfold drx_bytes at 2. rewrite P1.
  rewrite (drx_samples_decode _ _ (len4096 _ HL) HF). reflexivity.
Qed.
Lemma read_drx8_ok : forall a c r, well_formed_drx8 r ->
  read_drx8 (mkFile (a ++ drx8_bytes r ++ c) (zlen a)) = (mkFile (a ++ drx8_bytes r ++ c) (zlen a + 8224), Got (frame_of true r)).
Proof.
  intros a c r W. pose proof W as W'. destruct W' as (_ & _ & _ & _ & _ & _ & _ & _ & _ & _ & HL & HF).
  unfold read_drx8, read_frame_gen. pose proof (drx8_bytes_zlen r HL) as HZ.
  rewrite read_at by (unfold drx8_size; lia). unfold drx8_size at 1. rewrite HZ, Z.eqb_refl. cbn [negb].
  assert (HP : zlen (flat_map drx8_sample (r_samples r)) = drx8_size - 32).
  { rewrite (flat_map_len _ 2) by reflexivity. unfold drx8_size. lia. }
  destruct (parse_header drx8_size fill8 true _ _ r _ W HP) as [P1 P2].
  unfold drx8_bytes at 1. rewrite P2. cbn [negb]. unfold drx8_bytes at 2. rewrite P1.
  rewrite (drx8_samples_decode _ _ (len4096 _ HL) HF). reflexivity.
Qed.
