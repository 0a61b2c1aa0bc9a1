(** Byte strings as lists of Z: big- and little-endian integers.  Nothing about LSL. *)
From Coq Require Import List ZArith Lia Bool.
From Verif Require Export LibList.
Import ListNotations.
Open Scope Z_scope.

Definition is_byte (b : Z) : Prop := 0 <= b < 256.
Definition bytes_ok (l : list Z) : Prop := Forall is_byte l.

(** Value of a little-endian / big-endian byte string. *)
Fixpoint le_val (l : list Z) : Z :=
  match l with [] => 0 | b :: r => b + 256 * le_val r end.
Definition be_val (l : list Z) : Z := le_val (rev l).

(** The n-byte little-endian / big-endian encoding of v (modulo 256^n). *)
Fixpoint le (n : nat) (v : Z) : list Z :=
  match n with O => [] | S k => v mod 256 :: le k (v / 256) end.
Definition be (n : nat) (v : Z) : list Z := rev (le n v).

(** __bswap_16 / _32 / _64: reverse the n bytes of an integer. *)
Definition bswap (n : nat) (v : Z) : Z := be_val (le n v).

Lemma le_length : forall n v, length (le n v) = n.
Proof. induction n; intro v; simpl; auto. Qed.
Lemma be_length : forall n v, length (be n v) = n.
Proof. intros. unfold be. rewrite rev_length. apply le_length. Qed.
Lemma le_zlen : forall n v, zlen (le n v) = Z.of_nat n.
Proof. intros. unfold zlen. rewrite le_length. auto. Qed.
Lemma be_zlen : forall n v, zlen (be n v) = Z.of_nat n.
Proof. intros. unfold zlen. rewrite be_length. auto. Qed.
Lemma le_ok : forall n v, bytes_ok (le n v).
Proof.
  induction n; intro v; simpl; constructor; [|apply IHn]. unfold is_byte. apply Z.mod_pos_bound. lia.
Qed.
Lemma be_ok : forall n v, bytes_ok (be n v).
Proof. intros. unfold be, bytes_ok. apply Forall_rev. apply le_ok. Qed.

Lemma le_val_le : forall n v, le_val (le n v) = v mod 256 ^ Z.of_nat n.
Proof.
  induction n as [|n IH]; intro v.
  - change (le_val (le 0 v)) with 0. change (256 ^ Z.of_nat 0) with 1. rewrite Z.mod_1_r. reflexivity.
  - cbn [le le_val]. rewrite IH. rewrite Nat2Z.inj_succ, Z.pow_succ_r by lia.
    rewrite Z.rem_mul_r by (try lia; apply Z.pow_nonzero; lia). reflexivity.
Qed.
Lemma be_val_be : forall n v, be_val (be n v) = v mod 256 ^ Z.of_nat n.
Proof. intros. unfold be_val, be. rewrite rev_involutive. apply le_val_le. Qed.

Lemma le_le_val : forall l, bytes_ok l -> le (length l) (le_val l) = l.
Proof.
  induction l as [|b l IH]; intro H; [reflexivity|]. inversion H as [|? ? Hb Hl]; subst.
  unfold is_byte in Hb. cbn [length le le_val].
  replace (b + 256 * le_val l) with (b + le_val l * 256) by lia.
  rewrite Z.mod_add, Z.div_add by lia. rewrite Z.mod_small, Z.div_small by lia.
  rewrite Z.add_0_l, IH; auto.
Qed.
Lemma bswap_le_val : forall l, bytes_ok l -> bswap (length l) (le_val l) = be_val l.
Proof. intros l H. unfold bswap. rewrite le_le_val; auto. Qed.
Lemma bswap_load : forall n l, bytes_ok l -> zlen l = Z.of_nat n -> bswap n (le_val l) = be_val l.
Proof. intros n l H HL. replace n with (length l) by (unfold zlen in HL; lia). apply bswap_le_val; auto. Qed.

Lemma le_val_bound : forall l, bytes_ok l -> 0 <= le_val l < 256 ^ zlen l.
Proof.
  induction l as [|b l IH]; intro H; [cbn; lia|]. inversion H as [|? ? Hb Hl]; subst.
  unfold is_byte in Hb. specialize (IH Hl). rewrite zlen_cons. pose proof (zlen_nonneg l).
  rewrite Z.pow_add_r by lia. change (256 ^ 1) with 256. cbn [le_val]. lia.
Qed.
Lemma bytes_ok_rev : forall l, bytes_ok l -> bytes_ok (rev l).
Proof. intros. apply Forall_rev. auto. Qed.
Lemma be_val_bound : forall l, bytes_ok l -> 0 <= be_val l < 256 ^ zlen l.
Proof. intros. unfold be_val. rewrite <- (zlen_rev l). apply le_val_bound. apply bytes_ok_rev; auto. Qed.

Lemma le_val_app : forall a b, le_val (a ++ b) = le_val a + 256 ^ zlen a * le_val b.
Proof.
  induction a as [|x a IH]; intro b; cbn [app le_val].
  - change (256 ^ zlen (@nil Z)) with 1. lia.
  - rewrite IH, zlen_cons. pose proof (zlen_nonneg a). rewrite Z.pow_add_r by lia. change (256 ^ 1) with 256. lia.
Qed.
Lemma be_val_app : forall a b, be_val (a ++ b) = be_val a * 256 ^ zlen b + be_val b.
Proof. intros. unfold be_val. rewrite rev_app_distr, le_val_app, zlen_rev. lia. Qed.

Lemma bytes_ok_app : forall a b, bytes_ok (a ++ b) <-> bytes_ok a /\ bytes_ok b.
Proof. intros. unfold bytes_ok. apply Forall_app. Qed.
Lemma bytes_ok_ztake : forall n l, bytes_ok l -> bytes_ok (ztake n l).
Proof.
  intros n l H. rewrite <- (ztake_zdrop n l) in H. apply bytes_ok_app in H. tauto.
Qed.
Lemma bytes_ok_zdrop : forall n l, bytes_ok l -> bytes_ok (zdrop n l).
Proof.
  intros n l H. rewrite <- (ztake_zdrop n l) in H. apply bytes_ok_app in H. tauto.
Qed.

(** Bytes i .. i+n-1 of a string. *)
Definition slice (i n : Z) (l : list Z) : list Z := ztake n (zdrop i l).

Lemma slice_app_r : forall a b i n, zlen a <= i -> slice i n (a ++ b) = slice (i - zlen a) n b.
Proof. intros. unfold slice. rewrite zdrop_app_ge by lia. auto. Qed.
Lemma slice_app_exact : forall a b i n, i = 0 -> n = zlen a -> slice i n (a ++ b) = a.
Proof. intros a b i n -> ->. unfold slice. rewrite zdrop_0 by lia. apply ztake_app_exact. Qed.
Lemma slice_all : forall a n, n = zlen a -> slice 0 n a = a.
Proof. intros a n ->. unfold slice. rewrite zdrop_0 by lia. apply ztake_all. lia. Qed.
Lemma slice_ok : forall i n l, bytes_ok l -> bytes_ok (slice i n l).
Proof. intros. apply bytes_ok_ztake, bytes_ok_zdrop. auto. Qed.
Lemma slice_zlen : forall i n l, 0 <= i -> 0 <= n -> i + n <= zlen l -> zlen (slice i n l) = n.
Proof. intros. unfold slice. rewrite zlen_ztake, zlen_zdrop by lia. lia. Qed.

(** Integers lo .. lo+n-1. *)
Fixpoint zseq (lo : Z) (n : nat) : list Z :=
  match n with O => [] | S k => lo :: zseq (lo + 1) k end.
Lemma zseq_In : forall n lo x, lo <= x < lo + Z.of_nat n -> In x (zseq lo n).
Proof.
  induction n as [|n IH]; intros lo x H; [lia|].
  cbn [zseq]. destruct (Z.eq_dec lo x) as [->|]; [left; auto|right; apply IH; lia].
Qed.
Lemma zseq_sweep : forall (P : Z -> bool) lo n, forallb P (zseq lo n) = true ->
  forall x, lo <= x < lo + Z.of_nat n -> P x = true.
Proof. intros P lo n H x Hx. rewrite forallb_forall in H. apply H. apply zseq_In. auto. Qed.

(** Masks *)
Lemma land_mask : forall v n, 0 <= n -> Z.land v (2 ^ n - 1) = v mod 2 ^ n.
Proof. intros v n H. rewrite <- Z.land_ones by auto. rewrite Z.ones_equiv. f_equal. Qed.
Lemma land_255 : forall v, Z.land v 255 = v mod 256.
Proof. intro. apply (land_mask v 8). lia. Qed.

Lemma div256 : forall v k, 0 <= k -> Z.shiftr v k = v / 2 ^ k.
Proof. intros. apply Z.shiftr_div_pow2. auto. Qed.

Lemma slice_mid : forall a b c i n, i = zlen a -> n = zlen b -> slice i n (a ++ b ++ c) = b.
Proof.
  intros a b c i n -> ->. rewrite slice_app_r by lia. apply slice_app_exact; lia.
Qed.
Lemma bswap_be : forall n v, 0 <= v < 256 ^ Z.of_nat n -> bswap n (le_val (be n v)) = v.
Proof.
  intros n v H. rewrite bswap_load; [|apply be_ok|apply be_zlen]. rewrite be_val_be. apply Z.mod_small. auto.
Qed.

(** The k-th chunk of a concatenation, as a slice. *)
Lemma slice_chunk : forall k chunks i n,
  i = zlen (concat (firstn k chunks)) -> n = zlen (nth k chunks []) ->
  slice i n (concat chunks) = nth k chunks [].
Proof.
  induction k as [|k IH]; intros chunks i n Hi Hn; destruct chunks as [|c r].
  - cbn in *. subst. reflexivity.
  - cbn [firstn concat nth] in *. apply slice_app_exact; [subst i; reflexivity|auto].
  - cbn in *. subst. reflexivity.
  - cbn [firstn concat nth] in *. rewrite zlen_app in Hi. pose proof (zlen_nonneg (concat (firstn k r))).
    rewrite slice_app_r by lia. apply IH; lia.
Qed.
