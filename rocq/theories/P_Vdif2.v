(** VDIF: totality of the reader, the writer, streams of frames. *)
From Coq Require Import List ZArith Bool Lia QArith.
From Verif Require Import M_Vdif S_Vdif S_VdifRun P_Drx P_Drx2 P_Vdif.
Import ListNotations.
Open Scope Z_scope.
Ltac Zify.zify_post_hook ::= Z.div_mod_to_equations.

(** ** Any file *)
Lemma f_read_bounds : forall n f f1 d, 0 <= n -> 0 <= f_pos f <= zlen (f_data f) -> f_read n f = (f1, d) ->
  f_data f1 = f_data f /\ f_pos f1 = f_pos f + zlen d /\ zlen d <= n /\ f_pos f1 <= zlen (f_data f) /\
  (zlen d <> n -> f_pos f1 = zlen (f_data f)).
Proof.
  intros n f f1 d Hn Hp E. unfold f_read in E. destruct (n <? 0) eqn:EN; [lia|]. inversion E; subst. clear E.
  cbn [f_data f_pos]. split; [reflexivity|]. rewrite zlen_ztake, zlen_zdrop by lia. lia.
Qed.

Lemma bitf_bound : forall lo n w, 0 <= lo -> 0 <= n -> 0 <= bitf lo n w < 2 ^ n.
Proof. intros. rewrite bitf_eq by auto. apply Z.mod_pos_bound. apply Z.pow_pos_nonneg; lia. Qed.

Lemma parse_data_exn : forall V (lut : Z -> Z -> V) h d e, parse_data lut h d = Raise e -> e = RuntimeError \/ e = MemoryError.
Proof.
  intros V lut h d e. unfold parse_data. destruct (negb _); [intro H; inversion H; auto|].
  assert (R : forall A (l : list A) e', reshape (h_nchan h) l = Raise e' -> e' = MemoryError).
  { intros A l e'. unfold reshape. destruct (_ =? 1); [discriminate|]. destruct (negb _); [|discriminate].
    intro H; inversion H; auto. }
  destruct (h_complex h =? 1).
  - destruct (reshape _ _) eqn:E; cbn; intro H; inversion H; subst. right. eauto.
  - destruct (reshape _ _) eqn:E; cbn; intro H; inversion H; subst. right. eauto.
Qed.

Lemma read_vdif_total : forall V (lut : Z -> Z -> V) f f' r, 0 <= f_pos f <= zlen (f_data f) ->
  read_vdif lut f = (f', r) ->
  f_data f' = f_data f /\
  match r with
  | VGot (h, _) => f_pos f' = f_pos f + 8 * h_length h /\ 16 <= 8 * h_length h /\ f_pos f' <= zlen (f_data f)
  | VSync loc => f' = f /\ loc = f_pos f
  | VEof => f_pos f' = zlen (f_data f)
  | VExc e => (e = RuntimeError \/ e = MemoryError) /\ f_pos f + 16 <= f_pos f' <= zlen (f_data f)
  end.
Proof.
  intros V lut f f' r Hp E. unfold read_vdif in E.
  destruct (f_read 16 f) as [f1 raw] eqn:E1.
  destruct (f_read_bounds 16 f f1 raw ltac:(lia) Hp E1) as (D1 & P1 & L1 & B1 & S1).
  destruct (zlen raw =? 16) eqn:EZ; cbn [negb] in E.
  2:{ inversion E; subst. split; auto. apply S1. lia. }
  apply Z.eqb_eq in EZ. cbv zeta in E.
  assert (HN : 0 <= h_length (parse_head raw [])) by (apply bitf_bound; lia).
  assert (HG : forall e, h_length (parse_head raw e) = h_length (parse_head raw [])) by reflexivity.
  destruct (h_length (parse_head raw []) * 8 <? head_size (h_legacy (parse_head raw []))) eqn:EL.
  { inversion E; subst. clear E. unfold f_seek. cbn [Z.eqb Pos.eqb].
    replace (f_pos f1 + -16) with (f_pos f) by lia. destruct (f_pos f <? 0) eqn:EP; [lia|].
    cbn [fst f_data f_tell f_pos]. split; auto. split; auto. rewrite D1. destruct f; reflexivity. }
  assert (HS : 16 <= head_size (h_legacy (parse_head raw []))) by (unfold head_size; destruct (_ =? 0); lia).
  set (X := if h_legacy (parse_head raw []) =? 0 then f_read 16 f1 else (f1, repeat 0 16)) in *.
  assert (HX : f_data (fst X) = f_data f /\ f_pos f1 <= f_pos (fst X) <= zlen (f_data f) /\
    (zlen (snd X) <> 16 -> f_pos (fst X) = zlen (f_data f)) /\
    (zlen (snd X) = 16 -> f_pos (fst X) = f_pos f + head_size (h_legacy (parse_head raw [])))).
  { unfold X, head_size. destruct (h_legacy (parse_head raw []) =? 0).
    - destruct (f_read 16 f1) as [f2 e] eqn:E2. 
      assert (Hp1 : 0 <= f_pos f1 <= zlen (f_data f1)) by (rewrite D1; pose proof (zlen_nonneg raw); lia).
      destruct (f_read_bounds 16 f1 f2 e ltac:(lia) Hp1 E2) as (D2 & P2 & L2 & B2 & S2).
      cbn [fst snd]. rewrite D1 in *. pose proof (zlen_nonneg e). repeat split; try congruence; try lia; auto.
    - cbn [fst snd]. repeat split; auto; try lia. }
  destruct X as [f2 e]. cbn [fst snd] in HX. destruct HX as (D2 & P2 & S2 & H2).
  destruct (zlen e =? 16) eqn:EZ2; cbn [negb] in E.
  2:{ inversion E; subst. split; auto. apply S2. lia. }
  apply Z.eqb_eq in EZ2. specialize (H2 EZ2). clear S2.
  set (n := h_length (parse_head raw []) * 8 - head_size (h_legacy (parse_head raw []))) in *.
  destruct (f_read n f2) as [f3 d] eqn:E3.
  assert (Hp2 : 0 <= f_pos f2 <= zlen (f_data f2)) by (rewrite D2; pose proof (zlen_nonneg raw); lia).
  destruct (f_read_bounds n f2 f3 d ltac:(lia) Hp2 E3) as (D3 & P3 & L3 & B3 & S3).
  rewrite D2 in *. pose proof (zlen_nonneg d).
  destruct (zlen d =? n) eqn:EZ3; cbn [negb] in E.
  2:{ inversion E; subst. split; auto. apply S3. lia. }
  apply Z.eqb_eq in EZ3.
  destruct (parse_data lut (parse_head raw e) d) as [x|ex] eqn:EP; inversion E; subst.
  - split; auto. rewrite HG. unfold n in EZ3. lia.
  - split; auto. split; [eapply parse_data_exn; eauto|]. lia.
Qed.

(** ** The writer *)
Lemma lor_disjoint : forall v d b, 0 <= b -> 0 <= v < 2 ^ b -> Z.lor v (2 ^ b * d) = v + 2 ^ b * d.
Proof.
  intros v d b Hb Hv. rewrite Z.mul_comm, <- Z.shiftl_mul_pow2 by lia.
  assert (E : Z.land v (Z.shiftl d b) = 0).
  { apply Z.bits_inj'. intros n Hn. rewrite Z.land_spec, Z.bits_0.
    destruct (Z.ltb_spec n b).
    + rewrite Z.shiftl_spec_low by lia. apply andb_false_r.
    + rewrite <- (Z.mod_small v (2 ^ b)) by lia. rewrite Z.mod_pow2_bits_high by lia. reflexivity. }
  rewrite <- Z.lxor_lor, <- Z.add_nocarry_lxor by auto. reflexivity.
Qed.

Lemma pack_word_eq : forall bits n p l, 0 < bits -> 0 <= p -> (n <= length l)%nat ->
  Forall (fun x => 0 <= x < 2 ^ bits) l ->
  pack_word bits n p l = Some (2 ^ (bits * p) * digits (2 ^ bits) (firstn n l)).
Proof.
  intros bits n. induction n as [|n IH]; intros p l Hb Hp Hl HF.
  - cbn [pack_word firstn digits]. f_equal. lia.
  - destruct l as [|v l]; [simpl in Hl; lia|]. cbn [pack_word firstn digits]. inversion HF as [|? ? Hv HF']; subst.
    rewrite IH by (auto; simpl in Hl; lia). f_equal.
    rewrite Z.shiftl_mul_pow2 by nia. replace (bits * (p + 1)) with (bits * p + bits) by lia.
    rewrite Z.pow_add_r by nia.
    replace (v * 2 ^ (bits * p)) with (Z.shiftl v (bits * p)) by (apply Z.shiftl_mul_pow2; nia).
    replace (2 ^ (bits * p) * 2 ^ bits * digits (2 ^ bits) (firstn n l))
      with (Z.shiftl (2 ^ bits * digits (2 ^ bits) (firstn n l)) (bits * p)) by (rewrite Z.shiftl_mul_pow2 by nia; ring).
    rewrite <- Z.shiftl_lor, lor_disjoint by lia. rewrite Z.shiftl_mul_pow2 by nia. ring.
Qed.

Lemma pack_word_none : forall bits n p l, (length l < n)%nat -> pack_word bits n p l = None.
Proof.
  intros bits n. induction n as [|n IH]; intros p l H; [lia|]. destruct l as [|v l]; cbn [pack_word]; auto.
  rewrite IH; auto. simpl in H. lia.
Qed.

Lemma le4_bytes : forall w, [b255 w 0; b255 w 8; b255 w 16; b255 w 24] = le 4 w.
Proof.
  intro w. unfold b255. rewrite !land_255, !Z.shiftr_div_pow2 by lia. cbn [le].
  change (2 ^ 0) with 1. rewrite Z.div_1_r, !Z.div_div by lia. reflexivity.
Qed.

Lemma le_split : forall a b x y, 0 <= x < 256 ^ Z.of_nat a ->
  le (a + b) (x + 256 ^ Z.of_nat a * y) = le a x ++ le b y.
Proof.
  intros a. induction a as [|a IH]; intros b x y H.
  - change (256 ^ Z.of_nat 0) with 1 in *. cbn [Nat.add le app]. f_equal. lia.
  - rewrite Nat2Z.inj_succ, Z.pow_succ_r in * by lia. cbn [Nat.add le app].
    assert (E : x + 256 * 256 ^ Z.of_nat a * y = x + (256 ^ Z.of_nat a * y) * 256) by ring. rewrite E.
    rewrite Z.mod_add, Z.div_add by lia. f_equal. apply IH.
    assert (0 < 256 ^ Z.of_nat a) by (apply Z.pow_pos_nonneg; lia).
    set (A := 256 ^ Z.of_nat a) in *. clearbody A. lia.
Qed.

Lemma payload_app : forall bits m g r, bits4 bits -> 0 <= m -> zlen g * bits = 8 * m ->
  Forall (fun x => 0 <= x < 2 ^ bits) g ->
  payload bits (g ++ r) = le (Z.to_nat m) (digits (2 ^ bits) g) ++ payload bits r.
Proof.
  intros bits m g r Hb Hm Hl Hg. pose proof (bits_cases _ Hb) as HC.
  assert (H0 : 0 < 2 ^ bits) by (apply Z.pow_pos_nonneg; lia). pose proof (zlen_nonneg r). pose proof (zlen_nonneg g).
  assert (HB : (2 ^ bits) ^ zlen g = 256 ^ m).
  { rewrite <- Z.pow_mul_r by lia. change 256 with (2 ^ 8). rewrite <- Z.pow_mul_r by lia. f_equal. lia. }
  pose proof (digits_bound _ g H0 Hg) as HD. rewrite HB in HD.
  unfold payload, payload_len. rewrite digits_app, HB.
  replace (Z.to_nat (zlen (g ++ r) * bits / 8)) with (Z.to_nat m + Z.to_nat (zlen r * bits / 8))%nat.
  2:{ rewrite <- Z2Nat.inj_add by (try apply Z.div_pos; nia). f_equal. rewrite zlen_app.
      replace ((zlen g + zlen r) * bits) with (zlen r * bits + m * 8) by lia. rewrite Z.div_add by lia. lia. }
  rewrite <- (Z2Nat.id m) at 2 by lia. apply le_split. rewrite Z2Nat.id by lia. exact HD.
Qed.

Lemma spw : forall bits, bits4 bits -> 0 < 32 / bits /\ 32 / bits * bits = 32.
Proof. intros bits H. destruct (bits_cases _ H) as [->|[->|[->| ->]]]; vm_compute; split; reflexivity. Qed.

Lemma pack_words_ok : forall bits n fuel l, bits4 bits -> (n < fuel)%nat -> zlen l = Z.of_nat n * (32 / bits) ->
  Forall (fun x => 0 <= x < 2 ^ bits) l ->
  pack_words bits fuel (4 * Z.of_nat n) l = Ok (payload bits l).
Proof.
  intros bits n. induction n as [|n IH]; intros fuel l Hb Hf Hl HF; (destruct fuel as [|fuel]; [lia|]).
  - assert (l = []) by (apply zlen_0; lia). subst l. cbn [pack_words]. destruct (_ <=? 0) eqn:E; [|lia]. reflexivity.
  - destruct (spw bits Hb) as [S1 S2]. pose proof (bits_cases _ Hb) as HC.
    cbn [pack_words]. destruct (_ <=? 0) eqn:E; [lia|].
    assert (HLg : zlen (ztake (32 / bits) l) = 32 / bits) by (rewrite zlen_ztake; nia).
    rewrite pack_word_eq; auto; try lia. 2:{ unfold zlen in Hl. nia. }
    rewrite Z.mul_0_r, Z.pow_0_r, Z.mul_1_l.
    destruct (4 * Z.of_nat (S n) <? 4) eqn:E4; [lia|].
    change (firstn (Z.to_nat (32 / bits)) l) with (ztake (32 / bits) l).
    replace (4 * Z.of_nat (S n) - 4) with (4 * Z.of_nat n) by lia.
    assert (HF2 : Forall (fun x => 0 <= x < 2 ^ bits) (ztake (32 / bits) l) /\ Forall (fun x => 0 <= x < 2 ^ bits) (zdrop (32 / bits) l)).
    { rewrite <- (ztake_zdrop (32 / bits) l) in HF. apply Forall_app in HF. exact HF. }
    rewrite IH; auto; try lia; [|rewrite zlen_zdrop by lia; nia|tauto].
    cbn [bind]. rewrite le4_bytes. rewrite <- (ztake_zdrop (32 / bits) l) at 3.
    rewrite (payload_app bits 4) by (auto; try lia; tauto). reflexivity.
Qed.

(** The frame that is written, as a recorded frame. *)
Definition written (bits stand secs epoch frame khz : Z) (d : wdata) : vrec :=
  mkVrec false false secs epoch frame 2 0 stand 0 bits (negb (w_isreal d)) (khz + 2 ^ 24, 0, 0, 0) (biased bits d).

Lemma biased_range : forall bits d, bits4 bits -> Forall (fun x => 0 <= x < 2 ^ bits) (biased bits d).
Proof.
  intros bits d Hb. unfold biased. apply Forall_map. apply Forall_forall. intros v _.
  pose proof (bits_cases _ Hb). rewrite land_mask by lia. apply Z.mod_pos_bound. apply Z.pow_pos_nonneg; lia.
Qed.

Lemma biased_value : forall bits v, bits4 bits -> - 2 ^ (bits - 1) <= v < 2 ^ (bits - 1) ->
  Z.land ((v + 2 ^ (bits - 1)) mod 2 ^ 32) (2 ^ bits - 1) = v + 2 ^ (bits - 1).
Proof.
  intros bits v Hb Hv. pose proof (bits_cases _ Hb) as HC. rewrite land_mask by lia.
  assert (HP : 2 ^ bits = 2 * 2 ^ (bits - 1)).
  { replace bits with (1 + (bits - 1)) at 1 by lia. rewrite Z.pow_add_r by lia. reflexivity. }
  assert (0 < 2 ^ (bits - 1)) by (apply Z.pow_pos_nonneg; lia).
  assert (2 ^ bits <= 2 ^ 32) by (apply Z.pow_le_mono_r; lia).
  rewrite !Z.mod_small; lia.
Qed.

Lemma zlen_biased : forall bits d, zlen (biased bits d) = zlen (interlaced d).
Proof. intros. unfold biased. apply zlen_map. Qed.

Lemma write_vdif_eq : forall bits stand secs epoch frame khz d, bits4 bits ->
  0 <= stand < 2 ^ 16 -> 0 <= secs < 2 ^ 30 -> 0 <= epoch < 2 ^ 6 -> 0 <= frame < 2 ^ 24 -> 0 <= khz < 2 ^ 24 ->
  zlen (interlaced d) * bits mod 64 = 0 -> 32 + zlen (interlaced d) * bits / 8 < 2 ^ 27 ->
  write_vdif bits stand secs epoch frame khz d = Ok (vdif_bytes (written bits stand secs epoch frame khz d)).
Proof.
  intros bits stand secs epoch frame khz d Hb H1 H2 H3 H4 H5 Hm HL. unfold write_vdif.
  pose proof (bits_cases _ Hb) as HC. destruct (spw bits Hb) as [S1 S2]. pose proof (zlen_nonneg (interlaced d)) as HN.
  replace ((bits =? 1) || (bits =? 2) || (bits =? 4) || (bits =? 8))%bool with true
    by (destruct HC as [->|[->|[->| ->]]]; reflexivity). cbn [negb]. cbv zeta. rewrite zlen_biased.
  set (N := zlen (interlaced d) * bits / 32).
  assert (HN1 : zlen (interlaced d) = N * (32 / bits)).
  { unfold N. destruct HC as [->|[->|[->| ->]]];
      [change (32 / 1) with 32|change (32 / 2) with 16|change (32 / 4) with 8|change (32 / 8) with 4]; lia. }
  assert (HN2 : 4 * zlen (interlaced d) / (32 / bits) = 4 * N).
  { rewrite HN1. rewrite Z.mul_assoc. apply Z.div_mul. lia. }
  assert (HN0 : 0 <= N) by nia.
  assert (HN3 : zlen (interlaced d) * bits = 32 * N) by (rewrite HN1; nia).
  rewrite HN2. replace (4 * N) with (4 * Z.of_nat (Z.to_nat N)) at 1 by lia.
  rewrite pack_words_ok; auto.
  2:{ unfold zlen in HN1 at 1. unfold biased. rewrite map_length. nia. }
  2:{ rewrite zlen_biased. rewrite Z2Nat.id by lia. exact HN1. }
  2:{ apply biased_range; auto. }
  cbn [bind]. f_equal. unfold vdif_bytes. rewrite app_assoc. f_equal.
  unfold written, vdif_head, vdif_ext, frame_len, head_len, payload_len.
  cbn [r_secs r_epoch r_frame r_version r_lognchan r_station r_thread r_bits r_complex r_ext r_levels r_legacy r_invalid b2z].
  rewrite zlen_biased, HN3. replace (32 * N / 8) with (4 * N) by lia.
  assert (HW : forall w, [b255 w 0; b255 w 8; b255 w 16; b255 w 24] = le 4 w) by apply le4_bytes.
  cbn [concat]. rewrite !app_nil_r. rewrite <- !HW. cbn [app].
  unfold whead, b255. rewrite !land_255, !Z.shiftr_div_pow2, Z.shiftl_mul_pow2 by lia.
  change (Z.land (bits - 1) 31) with (Z.land (bits - 1) (2 ^ 5 - 1)). change 63 with (2 ^ 6 - 1). rewrite !land_mask by lia.
  assert (HLor : Z.lor (if w_isreal d then 0 else 128) ((bits - 1) mod 2 ^ 5 * 2 ^ 2) = (if w_isreal d then 0 else 128) + (bits - 1) * 4).
  { destruct HC as [->|[->|[->| ->]]], (w_isreal d); reflexivity. }
  rewrite HLor.
  assert (HL8 : 0 <= (32 + 4 * N) / 8 < 2 ^ 24) by (change (2 ^ 24) with 16777216; change (2 ^ 27) with 134217728 in HL; lia).
  assert (HB2 : b2z (negb (w_isreal d)) * 128 = if w_isreal d then 0 else 128) by (destruct (w_isreal d); reflexivity).
  set (L := (32 + 4 * N) / 8) in *. clearbody L. rewrite <- HB2.
  assert (HBB : 0 <= b2z (negb (w_isreal d)) <= 1) by (destruct (w_isreal d); cbn; lia).
  set (Cx := b2z (negb (w_isreal d))) in *. clearbody Cx. clear HLor HB2 HW HN3 HN2 HN1 HL Hm HN HN0 S1 S2.
  clearbody N. clear N. assert (HBr : 1 <= bits <= 8) by lia. clear HC Hb.
  change (2 ^ 30) with 1073741824 in *. change (2 ^ 31) with 2147483648 in *. change (2 ^ 24) with 16777216 in *.
  change (2 ^ 29) with 536870912 in *. change (2 ^ 26) with 67108864 in *. change (2 ^ 16) with 65536 in *.
  change (2 ^ 6) with 64 in *. change (2 ^ 0) with 1. change (2 ^ 8) with 256 in *.
  repeat rewrite Z.mul_0_r. repeat rewrite Z.add_0_r.
  assert (A3 : secs / 16777216 mod 64 = secs / 16777216 mod 256) by (clear - H2; lia).
  assert (B0 : frame / 1 mod 256 = (frame + 16777216 * epoch) / 1 mod 256) by (clear - H4 H3; lia).
  assert (B1 : frame / 256 mod 256 = (frame + 16777216 * epoch) / 256 mod 256) by (clear - H4 H3; lia).
  assert (B2 : frame / 65536 mod 256 = (frame + 16777216 * epoch) / 65536 mod 256) by (clear - H4 H3; lia).
  assert (B3 : epoch mod 64 = (frame + 16777216 * epoch) / 16777216 mod 256) by (clear - H4 H3; lia).
  assert (C0 : L / 1 mod 256 = (L + 536870912 * 2) / 1 mod 256) by (clear - HL8; lia).
  assert (C1 : L / 256 mod 256 = (L + 536870912 * 2) / 256 mod 256) by (clear - HL8; lia).
  assert (C2 : L / 65536 mod 256 = (L + 536870912 * 2) / 65536 mod 256) by (clear - HL8; lia).
  assert (C3 : 64 = (L + 536870912 * 2) / 16777216 mod 256) by (clear - HL8; lia).
  assert (D0 : stand / 1 mod 256 = (stand + 67108864 * (bits - 1) + 2147483648 * Cx) / 1 mod 256) by (clear - H1 HBr HBB; lia).
  assert (D1 : stand / 256 mod 256 = (stand + 67108864 * (bits - 1) + 2147483648 * Cx) / 256 mod 256) by (clear - H1 HBr HBB; lia).
  assert (D2 : 0 = (stand + 67108864 * (bits - 1) + 2147483648 * Cx) / 65536 mod 256) by (clear - H1 HBr HBB; lia).
  assert (D3 : Cx * 128 + (bits - 1) * 4 = (stand + 67108864 * (bits - 1) + 2147483648 * Cx) / 16777216 mod 256) by (clear - H1 HBr HBB; lia).
  assert (E0 : khz / 1 mod 256 = (khz + 16777216) / 1 mod 256) by (clear - H5; lia).
  assert (E1 : khz / 256 mod 256 = (khz + 16777216) / 256 mod 256) by (clear - H5; lia).
  assert (E2 : khz / 65536 mod 256 = (khz + 16777216) / 65536 mod 256) by (clear - H5; lia).
  assert (E3 : 1 = (khz + 16777216) / 16777216 mod 256) by (clear - H5; lia).
  change (0 / 1 mod 256) with 0. change (0 / 256 mod 256) with 0. change (0 / 65536 mod 256) with 0. change (0 / 16777216 mod 256) with 0.
  rewrite <- B0, <- B1, <- B2, <- B3, <- C0, <- C1, <- C2, <- C3, <- D0, <- D1, <- D2, <- D3, <- E0, <- E1, <- E2, <- E3, A3.
  reflexivity.
Qed.
