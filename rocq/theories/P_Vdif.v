(** Proofs about the VDIF reader. *)
From Coq Require Import List ZArith Bool Lia QArith.
From Verif Require Import M_Vdif S_Vdif S_VdifRun P_Drx.
Import ListNotations.
Open Scope Z_scope.
Ltac Zify.zify_post_hook ::= Z.div_mod_to_equations.

Lemma bitf_eq : forall lo n w, 0 <= lo -> 0 <= n -> bitf lo n w = (w / 2 ^ lo) mod 2 ^ n.
Proof. intros. unfold bitf. rewrite land_mask by lia. rewrite Z.shiftr_div_pow2 by lia. reflexivity. Qed.

(** ** Samples *)
Lemma digits_app : forall B a b, digits B (a ++ b) = digits B a + B ^ zlen a * digits B b.
Proof.
  intros B a b. induction a as [|x a IH]; cbn [app digits].
  - change (B ^ zlen (@nil Z)) with 1. lia.
  - rewrite IH, zlen_cons. pose proof (zlen_nonneg a). rewrite Z.pow_add_r, Z.pow_1_r by lia. ring.
Qed.
Lemma digits_bound : forall B l, 0 < B -> Forall (fun x => 0 <= x < B) l -> 0 <= digits B l < B ^ zlen l.
Proof.
  intros B l HB. induction l as [|x l IH]; intro H; [cbn; lia|].
  inversion H as [|? ? Hx Hl]; subst. specialize (IH Hl). pose proof (zlen_nonneg l).
  cbn [digits]. rewrite zlen_cons, Z.pow_add_r, Z.pow_1_r by lia. nia.
Qed.
Lemma digits_nth : forall B l lo, 0 < B -> Forall (fun x => 0 <= x < B) l ->
  map (fun i => (digits B l / B ^ (i - lo)) mod B) (zseq lo (length l)) = l.
Proof.
  intros B l. induction l as [|x l IH]; intros lo HB H; [reflexivity|].
  inversion H as [|? ? Hx Hl]; subst. cbn [length zseq map]. f_equal.
  - replace (lo - lo) with 0 by lia. rewrite Z.pow_0_r, Z.div_1_r. cbn [digits].
    rewrite Z.mul_comm, Z.mod_add by lia. apply Z.mod_small. lia.
  - rewrite <- (IH (lo + 1) HB Hl) at 2. apply map_ext_in. intros i Hi.
    assert (lo + 1 <= i) by (clear - Hi; revert lo Hi; induction (length l) as [|n IHn]; cbn [zseq]; intros lo Hi;
      [destruct Hi|destruct Hi as [<-|Hi]; [lia|specialize (IHn _ Hi); lia]]).
    cbn [digits]. replace (i - lo) with (1 + (i - (lo + 1))) by lia.
    rewrite Z.pow_add_r, Z.pow_1_r, <- Z.div_div by lia.
    replace (x + B * digits B l) with (x + digits B l * B) by lia.
    rewrite Z.div_add, (Z.div_small x) by lia. reflexivity.
Qed.

Definition bits4 (bits : Z) : Prop := In bits [1; 2; 4; 8].
Lemma bits_cases : forall bits, bits4 bits -> bits = 1 \/ bits = 2 \/ bits = 4 \/ bits = 8.
Proof. intros bits [H|[H|[H|[H|[]]]]]; lia. Qed.

Section S.
Context {V : Type} (lut : Z -> Z -> V).

Lemma byte_samples_group : forall bits g, bits4 bits -> zlen g = 8 / bits ->
  Forall (fun x => 0 <= x < 2 ^ bits) g ->
  byte_samples lut bits (digits (2 ^ bits) g) = map (lut bits) g.
Proof.
  intros bits g Hb Hl Hg. pose proof (bits_cases _ Hb).
  assert (0 < bits) by lia. assert (0 < 2 ^ bits) by (apply Z.pow_pos_nonneg; lia).
  unfold byte_samples. rewrite <- Hl. unfold zlen. rewrite Nat2Z.id.
  rewrite <- (digits_nth (2 ^ bits) g 0) at 2 by auto. rewrite map_map. apply map_ext_in.
  intros i Hi. f_equal. rewrite land_mask by lia.
  assert (0 <= i) by (clear - Hi; assert (forall n lo, In i (zseq lo n) -> lo <= i) as A by
     (induction n as [|n IHn]; cbn [zseq]; intros lo Hi'; [destruct Hi'|destruct Hi' as [<-|Hi']; [lia|specialize (IHn _ Hi'); lia]]);
     apply (A _ _ Hi)).
  rewrite Z.shiftr_div_pow2 by nia. rewrite Z.sub_0_r, <- Z.pow_mul_r by lia. reflexivity.
Qed.

Lemma payload_cons : forall bits g r, bits4 bits -> zlen g = 8 / bits ->
  Forall (fun x => 0 <= x < 2 ^ bits) g ->
  payload bits (g ++ r) = digits (2 ^ bits) g :: payload bits r.
Proof.
  intros bits g r Hb Hl Hg. pose proof (bits_cases _ Hb).
  assert (0 < 2 ^ bits) by (apply Z.pow_pos_nonneg; lia).
  assert (HB : (2 ^ bits) ^ zlen g = 256).
  { rewrite Hl. destruct H as [->|[->|[->| ->]]]; reflexivity. }
  pose proof (digits_bound _ g H0 Hg) as HD. rewrite HB in HD.
  unfold payload, payload_len. pose proof (zlen_nonneg r).
  replace (Z.to_nat (zlen (g ++ r) * bits / 8)) with (S (Z.to_nat (zlen r * bits / 8))).
  2:{ rewrite zlen_app, Hl. destruct H as [->|[->|[->| ->]]]; cbn [Z.div]; 
      [change (8 / 1) with 8|change (8 / 2) with 4|change (8 / 4) with 2|change (8 / 8) with 1]; lia. }
  cbn [le]. rewrite digits_app, HB.
  replace (digits (2 ^ bits) g + 256 * digits (2 ^ bits) r) with (digits (2 ^ bits) g + digits (2 ^ bits) r * 256) by lia.
  rewrite Z.mod_add, Z.div_add by lia.
  rewrite (Z.mod_small (digits (2 ^ bits) g)), (Z.div_small (digits (2 ^ bits) g)) by lia. reflexivity.
Qed.

Lemma payload_samples_n : forall bits n l, bits4 bits -> zlen l = Z.of_nat n * (8 / bits) ->
  Forall (fun x => 0 <= x < 2 ^ bits) l ->
  flat_map (byte_samples lut bits) (payload bits l) = map (lut bits) l.
Proof.
  intros bits n. induction n as [|n IH]; intros l Hb Hl HF.
  - assert (l = []) by (apply zlen_0; lia). subst l. unfold payload, payload_len.
    change (zlen (@nil Z)) with 0. rewrite Z.mul_0_l. reflexivity.
  - pose proof (bits_cases _ Hb).
    assert (0 < 8 / bits) by (destruct H as [->|[->|[->| ->]]]; reflexivity).
    rewrite <- (ztake_zdrop (8 / bits) l) in HF |- *. apply Forall_app in HF. destruct HF as [H1 H2].
    assert (zlen (ztake (8 / bits) l) = 8 / bits) by (rewrite zlen_ztake; nia).
    rewrite payload_cons by auto. cbn [flat_map]. rewrite byte_samples_group by auto.
    rewrite IH; auto; [symmetry; apply map_app|]. rewrite zlen_zdrop; nia.
Qed.

Lemma payload_samples : forall bits l, bits4 bits -> zlen l * bits mod 8 = 0 ->
  Forall (fun x => 0 <= x < 2 ^ bits) l ->
  flat_map (byte_samples lut bits) (payload bits l) = map (lut bits) l.
Proof.
  intros bits l Hb Hm HF. pose proof (zlen_nonneg l). pose proof (bits_cases _ Hb) as HC.
  apply (payload_samples_n bits (Z.to_nat (zlen l * bits / 8))); auto.
  rewrite Z2Nat.id by (apply Z.div_pos; nia).
  destruct HC as [->|[->|[->| ->]]]; 
    [change (8 / 1) with 8|change (8 / 2) with 4|change (8 / 4) with 2|change (8 / 8) with 1]; lia.
Qed.
End S.

Lemma payload_zlen : forall bits l, bits4 bits -> zlen (payload bits l) = payload_len bits (zlen l).
Proof.
  intros bits l Hb. unfold payload. rewrite le_zlen. pose proof (zlen_nonneg l). pose proof (bits_cases _ Hb).
  unfold payload_len. rewrite Z2Nat.id; auto. apply Z.div_pos; nia.
Qed.

Fixpoint pair_up_eq {V} (l : list V) {struct l} : pair_up l = complex_of l :=
  match l with
  | [] => eq_refl
  | [a] => eq_refl
  | a :: b :: r => f_equal (cons (a, b)) (pair_up_eq r)
  end.

Lemma pair_up_zlen_n : forall V n (l : list V), length l = (2 * n)%nat -> length (complex_of l) = n.
Proof.
  intros V n. induction n as [|n IH]; intros l H; [destruct l; [reflexivity|discriminate]|].
  destruct l as [|a [|b l]]; try (simpl in H; lia). cbn [complex_of length]. f_equal. apply IH. simpl in H. lia.
Qed.
Lemma pair_up_zlen : forall V (l : list V), zlen l mod 2 = 0 -> zlen (complex_of l) = zlen l / 2.
Proof.
  intros V l H. unfold zlen in *. rewrite (pair_up_zlen_n V (length l / 2)).
  - rewrite Nat2Z.inj_div. reflexivity.
  - pose proof (Nat.div_mod_eq (length l) 2). pose proof (Nat2Z.inj_mod (length l) 2).
    change (Z.of_nat 2) with 2 in *. rewrite H in H1. lia.
Qed.

(** ** Reshape *)
Lemma first_of_drop : forall A (d : A) i l, 0 <= i < zlen l -> firstn 1 (zdrop i l) = [znth d i l].
Proof.
  intros A d i l H. unfold zdrop, znth. destruct (i <? 0) eqn:E; [lia|].
  assert (Hn : (Z.to_nat i < length l)%nat) by (unfold zlen in H; lia). clear -Hn.
  revert l Hn. induction (Z.to_nat i) as [|n IH]; intros l Hn; destruct l as [|x l]; simpl in *; try lia; auto.
  apply IH. lia.
Qed.
Lemma zseq_length : forall n lo, length (zseq lo n) = n.
Proof. induction n; intro; simpl; auto. Qed.
Lemma zseq_range : forall n lo x, In x (zseq lo n) -> lo <= x < lo + Z.of_nat n.
Proof. induction n as [|n IH]; cbn [zseq]; intros lo x H; [destruct H|destruct H as [<-|H]; [lia|apply IH in H; lia]]. Qed.
Lemma zseq_znth : forall n lo i d, 0 <= i < Z.of_nat n -> znth d i (zseq lo n) = lo + i.
Proof.
  induction n as [|n IH]; intros lo i d H; [lia|]. cbn [zseq].
  destruct (Z.eq_dec i 0) as [->|]; [unfold znth; cbn; lia|].
  replace (lo :: zseq (lo + 1) n) with ([lo] ++ zseq (lo + 1) n) by reflexivity.
  rewrite znth_app_r by (cbn; lia). change (zlen [lo]) with 1. rewrite IH by lia. lia.
Qed.

Lemma strided_eq : forall A (d : A) nchan c l, 0 < nchan -> 0 <= c < nchan -> zlen l mod nchan = 0 ->
  strided nchan c l = map (fun t => znth d (t * nchan + c) l) (zseq 0 (Z.to_nat (zlen l / nchan))).
Proof.
  intros A d nchan c l Hn Hc Hm. unfold strided. rewrite flat_map_concat_map.
  rewrite (map_ext_in (fun t => firstn 1 (zdrop (t * nchan + c) l)) (fun t => [znth d (t * nchan + c) l])).
  - induction (zseq 0 (Z.to_nat (zlen l / nchan))); simpl; [auto|f_equal; auto].
  - intros t Ht. apply first_of_drop. apply zseq_range in Ht.
    pose proof (zlen_nonneg l). assert (0 <= zlen l / nchan) by (apply Z.div_pos; lia).
    assert (zlen l = nchan * (zlen l / nchan)) by (rewrite (Z.div_mod (zlen l) nchan) at 1; lia).
    rewrite Z2Nat.id in Ht by lia. split; [nia|]. rewrite H1. nia.
Qed.

Lemma reshape_ok : forall A nchan (l : list A), 0 < nchan -> zlen l mod nchan = 0 ->
  exists rows, reshape nchan l = Ok rows /\ by_channel nchan l rows.
Proof.
  intros A nchan l Hn Hm. unfold reshape. destruct (nchan =? 1) eqn:E.
  - apply Z.eqb_eq in E. subst nchan. exists [l]. split; [reflexivity|]. split; [reflexivity|].
    intros d c Hc. assert (c = 0) by lia. subst c. change (znth [] 0 [l]) with l.
    rewrite Z.div_1_r. split; [reflexivity|]. intros t Ht. f_equal. lia.
  - rewrite Hm. cbn [Z.eqb negb]. eexists. split; [reflexivity|].
    pose proof (zlen_nonneg l). assert (0 <= zlen l / nchan) by (apply Z.div_pos; lia).
    split; [rewrite zlen_map; unfold zlen; rewrite zseq_length; lia|].
    intros d c Hc.
    assert (ER : znth [] c (map (fun c0 => strided nchan c0 l) (zseq 0 (Z.to_nat nchan))) = strided nchan c l).
    { rewrite (znth_map _ _ _ 0) by (unfold zlen; rewrite zseq_length; lia).
      rewrite zseq_znth by lia. reflexivity. }
    rewrite ER, (strided_eq _ d) by auto. split.
    + rewrite zlen_map. unfold zlen at 1. rewrite zseq_length. lia.
    + intros t Ht. rewrite (znth_map _ _ _ 0) by (unfold zlen at 1; rewrite zseq_length; lia).
      rewrite zseq_znth by lia. reflexivity.
Qed.

(** ** Header *)
Lemma le4 : forall v, 0 <= v < 2 ^ 32 -> le_val (le 4 v) = v.
Proof. intros v H. rewrite le_val_le. change (256 ^ Z.of_nat 4) with (2 ^ 32). apply Z.mod_small. auto. Qed.


Lemma hwords4 : forall a b c d x, 
  hword 0 (concat [le 4 a; le 4 b; le 4 c; le 4 d] ++ x) = le_val (le 4 a) /\
  hword 1 (concat [le 4 a; le 4 b; le 4 c; le 4 d] ++ x) = le_val (le 4 b) /\
  hword 2 (concat [le 4 a; le 4 b; le 4 c; le 4 d] ++ x) = le_val (le 4 c) /\
  hword 3 (concat [le 4 a; le 4 b; le 4 c; le 4 d] ++ x) = le_val (le 4 d).
Proof.
  intros. assert (E : concat [le 4 a; le 4 b; le 4 c; le 4 d] ++ x = concat [le 4 a; le 4 b; le 4 c; le 4 d; x])
    by (cbn [concat]; rewrite <- !app_assoc, app_nil_r; reflexivity).
  rewrite E. unfold hword.
  split; [|split; [|split]]; f_equal.
Qed.

Lemma frame_len_units : forall r, vdif_ok r -> frame_len r mod 8 = 0 /\ head_len r <= frame_len r.
Proof.
  intros r (_ & _ & _ & _ & _ & _ & _ & Hb & _ & _ & Hm & Hl & _).
  pose proof (bits_cases _ Hb). pose proof (zlen_nonneg (r_levels r)).
  unfold frame_len, payload_len, head_len in *. destruct (r_legacy r), H as [E|[E|[E|E]]]; rewrite E in *; lia.
Qed.

Lemma head_fields : forall r e x, vdif_ok r -> 
  hword 0 e = fst (fst (fst (r_ext r))) -> hword 1 e = snd (fst (fst (r_ext r))) ->
  hword 2 e = snd (fst (r_ext r)) -> hword 3 e = snd (r_ext r) ->
  parse_head (concat (vdif_head r) ++ x) e =
  mkVH (b2z (r_invalid r)) (b2z (r_legacy r)) (r_secs r) (r_epoch r) (r_frame r) (r_version r)
       (2 ^ r_lognchan r) (frame_len r / 8) (b2z (r_complex r)) (r_bits r) (r_thread r) (r_station r)
       (fst (fst (fst (r_ext r)))) (snd (fst (fst (r_ext r)))) (snd (fst (r_ext r))) (snd (r_ext r)).
Proof.
  intros r e x H E0 E1 E2 E3. pose proof (frame_len_units r H) as [HL1 HL2].
  destruct H as (H1 & H2 & H3 & H4 & H5 & H6 & H7 & Hb & _ & _ & _ & Hl & _).
  pose proof (bits_cases _ Hb) as HC. assert (0 < head_len r) by (unfold head_len; destruct (r_legacy r); lia).
  unfold parse_head, vdif_head.
  destruct (hwords4 (r_secs r + 2 ^ 30 * b2z (r_legacy r) + 2 ^ 31 * b2z (r_invalid r)) (r_frame r + 2 ^ 24 * r_epoch r)
     (frame_len r / 8 + 2 ^ 24 * r_lognchan r + 2 ^ 29 * r_version r)
     (r_station r + 2 ^ 16 * r_thread r + 2 ^ 26 * (r_bits r - 1) + 2 ^ 31 * b2z (r_complex r)) x) as (W0 & W1 & W2 & W3).
  rewrite W0, W1, W2, W3, E0, E1, E2, E3. clear W0 W1 W2 W3 E0 E1 E2 E3.
  assert (0 <= b2z (r_legacy r) <= 1) by (destruct (r_legacy r); cbn; lia).
  assert (0 <= b2z (r_invalid r) <= 1) by (destruct (r_invalid r); cbn; lia).
  assert (0 <= b2z (r_complex r) <= 1) by (destruct (r_complex r); cbn; lia).
  assert (0 <= frame_len r / 8 < 2 ^ 24) by (change (2 ^ 24) with 16777216; change (2 ^ 27) with 134217728 in Hl; clear - HL1 HL2 Hl H; lia).
  assert (0 <= r_bits r - 1 < 32) by (clear - HC; lia).
  clear Hl HL1 HL2 HC H Hb.
  generalize dependent (frame_len r / 8). generalize dependent (r_bits r).
  generalize dependent (b2z (r_legacy r)). generalize dependent (b2z (r_invalid r)). generalize dependent (b2z (r_complex r)).
  intros C HC I HI G HG B HB L HL.
  rewrite !le4 by (change (2 ^ 32) with 4294967296; change (2 ^ 30) with 1073741824 in *; change (2 ^ 31) with 2147483648 in *;
    change (2 ^ 24) with 16777216 in *; change (2 ^ 29) with 536870912 in *; change (2 ^ 26) with 67108864 in *;
    change (2 ^ 16) with 65536 in *; change (2 ^ 10) with 1024 in *; change (2 ^ 6) with 64 in *;
    change (2 ^ 5) with 32 in *; change (2 ^ 3) with 8 in *; lia).
  rewrite !bitf_eq by lia. rewrite Z.shiftl_1_l.
  change (2 ^ 30) with 1073741824 in *. change (2 ^ 31) with 2147483648 in *. change (2 ^ 24) with 16777216 in *.
  change (2 ^ 29) with 536870912 in *. change (2 ^ 26) with 67108864 in *. change (2 ^ 16) with 65536 in *.
  change (2 ^ 10) with 1024 in *. change (2 ^ 6) with 64 in *. change (2 ^ 0) with 1. change (2 ^ 1) with 2.
  change (2 ^ 5) with 32 in *. change (2 ^ 3) with 8 in *.
  assert (F0 : (r_secs r + 1073741824 * G + 2147483648 * I) / 2147483648 mod 2 = I) by (clear - H1 HG HI; lia).
  assert (F1 : (r_secs r + 1073741824 * G + 2147483648 * I) / 1073741824 mod 2 = G) by (clear - H1 HG HI; lia).
  assert (F2 : (r_secs r + 1073741824 * G + 2147483648 * I) / 1 mod 1073741824 = r_secs r) by (clear - H1 HG HI; lia).
  assert (F3 : (r_frame r + 16777216 * r_epoch r) / 16777216 mod 64 = r_epoch r) by (clear - H2 H3; lia).
  assert (F4 : (r_frame r + 16777216 * r_epoch r) / 1 mod 16777216 = r_frame r) by (clear - H2 H3; lia).
  assert (F5 : (L + 16777216 * r_lognchan r + 536870912 * r_version r) / 536870912 mod 8 = r_version r) by (clear - HL H4 H5; lia).
  assert (F6 : (L + 16777216 * r_lognchan r + 536870912 * r_version r) / 16777216 mod 32 = r_lognchan r) by (clear - HL H4 H5; lia).
  assert (F7 : (L + 16777216 * r_lognchan r + 536870912 * r_version r) / 1 mod 16777216 = L) by (clear - HL H4 H5; lia).
  assert (F8 : (r_station r + 65536 * r_thread r + 67108864 * (B - 1) + 2147483648 * C) / 2147483648 mod 2 = C) by (clear - H6 H7 HB HC; lia).
  assert (F9 : (r_station r + 65536 * r_thread r + 67108864 * (B - 1) + 2147483648 * C) / 67108864 mod 32 + 1 = B) by (clear - H6 H7 HB HC; lia).
  assert (F10 : (r_station r + 65536 * r_thread r + 67108864 * (B - 1) + 2147483648 * C) / 65536 mod 1024 = r_thread r) by (clear - H6 H7 HB HC; lia).
  assert (F11 : (r_station r + 65536 * r_thread r + 67108864 * (B - 1) + 2147483648 * C) / 1 mod 65536 = r_station r) by (clear - H6 H7 HB HC; lia).
  rewrite F0, F1, F2, F3, F4, F5, F6, F7, F8, F9, F10, F11. reflexivity.
Qed.

Lemma vdif_head_zlen : forall r, zlen (concat (vdif_head r)) = 16.
Proof. intro r. unfold vdif_head. cbn [concat]. rewrite !zlen_app, !le_zlen. reflexivity. Qed.
Lemma vdif_ext_zlen : forall r, zlen (concat (vdif_ext r)) = head_len r - 16.
Proof.
  intro r. unfold vdif_ext, head_len. destruct (r_ext r) as [[[a b] c] d], (r_legacy r); [reflexivity|].
  cbn [concat]. rewrite !zlen_app, !le_zlen. reflexivity.
Qed.
Lemma vdif_bytes_zlen : forall r, vdif_ok r -> zlen (vdif_bytes r) = frame_len r.
Proof.
  intros r H. destruct H as (_ & _ & _ & _ & _ & _ & _ & Hb & _). unfold vdif_bytes, frame_len.
  rewrite !zlen_app, vdif_head_zlen, vdif_ext_zlen, payload_zlen by auto. lia.
Qed.

Lemma read_slice : forall data a b c n p, data = a ++ b ++ c -> p = zlen a -> n = zlen b ->
  f_read n (mkFile data p) = (mkFile data (p + n), b).
Proof. intros data a b c n p -> -> Hn. apply read_at; auto. Qed.

Section R.
Context {V : Type} (lut : Z -> Z -> V).

(** What reading the recorded frame returns. *)
Lemma read_vdif_ok : forall before after r, vdif_ok r ->
  let data := before ++ vdif_bytes r ++ after in
  exists h x, read_vdif lut (mkFile data (zlen before)) = (mkFile data (zlen before + frame_len r), VGot (h, x)) /\
    shows lut r h x.
Proof.
  intros before after r H data. pose proof (frame_len_units r H) as [HL1 HL2].
  pose proof H as (H1 & H2 & H3 & H4 & H5 & H6 & H7 & Hb & He & HF & Hm & Hl & Hp).
  pose proof (bits_cases _ Hb) as HC. pose proof (zlen_nonneg (r_levels r)) as HN.
  assert (HH : head_len r = 16 \/ head_len r = 32) by (unfold head_len; destruct (r_legacy r); lia).
  set (HB := concat (vdif_head r)). set (EB := concat (vdif_ext r)). set (PB := payload (r_bits r) (r_levels r)).
  assert (D1 : data = before ++ HB ++ (EB ++ PB ++ after)).
  { unfold data, vdif_bytes. fold HB EB PB. rewrite <- !app_assoc. reflexivity. }
  unfold read_vdif.
  rewrite (read_slice data before HB (EB ++ PB ++ after) 16 (zlen before) D1 eq_refl) by (symmetry; apply vdif_head_zlen).
  replace (zlen HB =? 16) with true by (symmetry; apply Z.eqb_eq; apply vdif_head_zlen). cbn [negb].
  assert (PH : forall e x, hword 0 e = fst (fst (fst (r_ext r))) -> hword 1 e = snd (fst (fst (r_ext r))) ->
    hword 2 e = snd (fst (r_ext r)) -> hword 3 e = snd (r_ext r) -> parse_head (HB ++ x) e = _)
    by (intros e x; apply head_fields; auto).
  assert (LEG : h_legacy (parse_head HB []) = b2z (r_legacy r) /\ h_length (parse_head HB []) = frame_len r / 8).
  { pose proof (head_fields r (le 4 (fst (fst (fst (r_ext r)))) ++ le 4 (snd (fst (fst (r_ext r)))) ++ le 4 (snd (fst (r_ext r))) ++ le 4 (snd (r_ext r))) [] H) as A.
    destruct (hwords4 (fst (fst (fst (r_ext r)))) (snd (fst (fst (r_ext r)))) (snd (fst (r_ext r))) (snd (r_ext r)) []) as (W0 & W1 & W2 & W3).
    rewrite app_nil_r in *. cbn [concat] in W0, W1, W2, W3. rewrite app_nil_r in *.
    unfold ext_ok in He. destruct (r_ext r) as [[[ea eb] ec] ed] eqn:EE. cbn [fst snd] in *.
    destruct He as (R1 & R2 & R3 & R4 & _).
    specialize (A ltac:(rewrite W0; apply le4; auto) ltac:(rewrite W1; apply le4; auto)
                  ltac:(rewrite W2; apply le4; auto) ltac:(rewrite W3; apply le4; auto)).
    unfold HB. split.
    - change (h_legacy (parse_head (concat (vdif_head r)) [])) with
        (h_legacy (parse_head (concat (vdif_head r)) (le 4 ea ++ le 4 eb ++ le 4 ec ++ le 4 ed))). rewrite A. reflexivity.
    - change (h_length (parse_head (concat (vdif_head r)) [])) with
        (h_length (parse_head (concat (vdif_head r)) (le 4 ea ++ le 4 eb ++ le 4 ec ++ le 4 ed))). rewrite A. reflexivity. }
  destruct LEG as [LG LN]. cbv zeta. rewrite LG, LN. clear LG LN.
  assert (HS : head_size (b2z (r_legacy r)) = head_len r) by (unfold head_len; destruct (r_legacy r); reflexivity).
  rewrite HS. destruct (frame_len r / 8 * 8 <? head_len r) eqn:EL; [lia|]. clear EL.
  assert (EX : exists e, (if b2z (r_legacy r) =? 0 then f_read 16 (mkFile data (zlen before + 16)) else (mkFile data (zlen before + 16), repeat 0 16))
     = (mkFile data (zlen before + head_len r), e) /\ zlen e = 16 /\
     hword 0 e = fst (fst (fst (r_ext r))) /\ hword 1 e = snd (fst (fst (r_ext r))) /\
     hword 2 e = snd (fst (r_ext r)) /\ hword 3 e = snd (r_ext r)).
  { unfold ext_ok in He. unfold head_len. unfold EB, vdif_ext in D1. pose proof (vdif_ext_zlen r) as EZ.
    unfold vdif_ext, head_len in EZ. 
    destruct (r_ext r) as [[[ea eb] ec] ed]. cbn [fst snd]. destruct He as (R1 & R2 & R3 & R4 & R5).
    destruct (r_legacy r); cbn [b2z Z.eqb].
    - destruct (R5 eq_refl) as (-> & -> & -> & ->). eexists. split; [reflexivity|]. split; [reflexivity|].
      repeat split; reflexivity.
    - exists (concat [le 4 ea; le 4 eb; le 4 ec; le 4 ed]).
      rewrite (read_slice data (before ++ HB) (concat [le 4 ea; le 4 eb; le 4 ec; le 4 ed]) (PB ++ after) 16).
      + split; [f_equal; f_equal; lia|]. split; [exact EZ|].
        destruct (hwords4 ea eb ec ed []) as (W0 & W1 & W2 & W3). rewrite app_nil_r in *.
        rewrite W0, W1, W2, W3, !le4 by auto. auto.
      + rewrite D1. rewrite <- app_assoc. reflexivity.
      + rewrite zlen_app. unfold HB. rewrite vdif_head_zlen. reflexivity.
      + symmetry. exact EZ. }
  destruct EX as (e & -> & EZ & X0 & X1 & X2 & X3). rewrite EZ. cbn [Z.eqb Pos.eqb negb].
  assert (PZ : zlen PB = payload_len (r_bits r) (zlen (r_levels r))) by (apply payload_zlen; auto).
  assert (NN : frame_len r / 8 * 8 - head_len r = zlen PB).
  { rewrite PZ. unfold frame_len in *. lia. }
  rewrite NN.
  rewrite (read_slice data (before ++ HB ++ EB) PB after (zlen PB)).
  2:{ rewrite D1, <- !app_assoc. reflexivity. }
  2:{ rewrite !zlen_app. unfold HB, EB. rewrite vdif_head_zlen, vdif_ext_zlen. lia. }
  2:{ reflexivity. }
  rewrite Z.eqb_refl. cbn [negb].
  specialize (PH e [] X0 X1 X2 X3). rewrite app_nil_r in PH. rewrite PH. clear PH.
  unfold parse_data. cbn [h_bits h_complex h_nchan].
  replace ((r_bits r =? 8) || (r_bits r =? 4) || (r_bits r =? 2) || (r_bits r =? 1))%bool with true
    by (destruct HC as [E|[E|[E|E]]]; rewrite E; reflexivity). cbn [negb].
  unfold PB at 1 2. rewrite payload_samples; auto.
  2:{ destruct HC as [E|[E|[E|E]]]; rewrite E in *; lia. }
  assert (0 < 2 ^ r_lognchan r) by (apply Z.pow_pos_nonneg; lia).
  assert (POS : zlen before + head_len r + zlen PB = zlen before + frame_len r) by (unfold frame_len; lia).
  assert (NZ : 2 * 2 ^ r_lognchan r <> 0) by (clear - H0; lia).
  rewrite POS. unfold parts in Hp. destruct (r_complex r) eqn:EC; cbn [b2z Z.eqb].
  - rewrite pair_up_eq. set (ss := map (lut (r_bits r)) (r_levels r)).
    assert (SZ : zlen ss = zlen (r_levels r)) by apply zlen_map.
    assert (E2 : zlen ss mod 2 = 0).
    { rewrite SZ. apply Z.mod_divide in Hp; [|exact NZ]. destruct Hp as [q Hq]. rewrite Hq.
      replace (q * (2 * 2 ^ r_lognchan r)) with (q * 2 ^ r_lognchan r * 2) by lia. apply Z.mod_mul. lia. }
    assert (M2 : zlen (complex_of ss) mod 2 ^ r_lognchan r = 0).
    { rewrite pair_up_zlen by auto. rewrite SZ. apply Z.mod_divide in Hp; [|exact NZ]. destruct Hp as [q Hq]. rewrite Hq.
      replace (q * (2 * 2 ^ r_lognchan r)) with (q * 2 ^ r_lognchan r * 2) by lia.
      rewrite Z.div_mul by lia. apply Z.mod_mul. lia. }
    destruct (reshape_ok _ (2 ^ r_lognchan r) (complex_of ss) H0 M2) as (rows & -> & BY).
    cbn [bind]. do 2 eexists. split; [reflexivity|]. split; [rewrite EC; reflexivity|]. split; auto.
  - rewrite Z.mul_1_l in Hp. set (ss := map (lut (r_bits r)) (r_levels r)).
    assert (SZ : zlen ss = zlen (r_levels r)) by apply zlen_map.
    assert (M2 : zlen ss mod 2 ^ r_lognchan r = 0) by (rewrite SZ; auto).
    destruct (reshape_ok _ (2 ^ r_lognchan r) ss H0 M2) as (rows & -> & BY).
    cbn [bind]. do 2 eexists. split; [reflexivity|]. split; [rewrite EC; reflexivity|]. split; auto.
Qed.
End R.
