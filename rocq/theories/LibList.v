(** List lemmas indexed by Z, nothing about LSL. *)
From Coq Require Import List ZArith Lia Bool.
From Coq Require Export ZifyBool ZifyNat.
Import ListNotations.
Open Scope Z_scope.

Definition zlen {A} (l : list A) : Z := Z.of_nat (length l).
Definition ztake {A} (n : Z) (l : list A) : list A := firstn (Z.to_nat n) l.
Definition zdrop {A} (n : Z) (l : list A) : list A := skipn (Z.to_nat n) l.
(** l[i] for 0 <= i < len(l), default [d] otherwise. *)
Definition znth {A} (d : A) (i : Z) (l : list A) : A := if i <? 0 then d else nth (Z.to_nat i) l d.

Section L.
Context {A : Type}.
Implicit Types l r : list A.

Lemma zlen_nonneg : forall l, 0 <= zlen l. Proof. intro. unfold zlen. lia. Qed.
Lemma zlen_nil : zlen (@nil A) = 0. Proof. reflexivity. Qed.
Lemma zlen_cons : forall x l, zlen (x :: l) = 1 + zlen l.
Proof. intros. unfold zlen. simpl length. lia. Qed.
Lemma zlen_app : forall l r, zlen (l ++ r) = zlen l + zlen r.
Proof. intros. unfold zlen. rewrite app_length. lia. Qed.
Lemma zlen_rev : forall l, zlen (rev l) = zlen l.
Proof. intros. unfold zlen. rewrite rev_length. auto. Qed.
Lemma zlen_0 : forall l, zlen l = 0 -> l = [].
Proof. intros l H. destruct l; auto. rewrite zlen_cons in H. pose proof (zlen_nonneg l). lia. Qed.

Lemma zlen_ztake : forall n l, 0 <= n -> zlen (ztake n l) = Z.min n (zlen l).
Proof. intros. unfold zlen, ztake. rewrite firstn_length. lia. Qed.
Lemma zlen_zdrop : forall n l, 0 <= n -> zlen (zdrop n l) = Z.max 0 (zlen l - n).
Proof. intros. unfold zlen, zdrop. rewrite skipn_length. lia. Qed.

Lemma ztake_zdrop : forall n l, ztake n l ++ zdrop n l = l.
Proof. intros. unfold ztake, zdrop. apply firstn_skipn. Qed.
Lemma ztake_all : forall n l, zlen l <= n -> ztake n l = l.
Proof. intros. unfold ztake, zlen in *. apply firstn_all2. lia. Qed.
Lemma ztake_0 : forall n l, n <= 0 -> ztake n l = [].
Proof. intros. unfold ztake. replace (Z.to_nat n) with 0%nat by lia. reflexivity. Qed.
Lemma zdrop_0 : forall n l, n <= 0 -> zdrop n l = l.
Proof. intros. unfold zdrop. replace (Z.to_nat n) with 0%nat by lia. reflexivity. Qed.
Lemma zdrop_all : forall n l, zlen l <= n -> zdrop n l = [].
Proof. intros. unfold zdrop, zlen in *. apply skipn_all2. lia. Qed.
Lemma zdrop_zdrop : forall a b l, 0 <= a -> 0 <= b -> zdrop a (zdrop b l) = zdrop (a + b) l.
Proof.
  intros a b l Ha Hb. unfold zdrop. rewrite Z2Nat.inj_add by lia.
  generalize (Z.to_nat a) (Z.to_nat b). clear. intros a b. revert l.
  induction b as [|b IH]; intro l.
  - rewrite Nat.add_0_r. reflexivity.
  - rewrite Nat.add_succ_r. destruct l as [|x l]; simpl; auto. destruct a; reflexivity.
Qed.
Lemma zdrop_app_ge : forall n l r, zlen l <= n -> zdrop n (l ++ r) = zdrop (n - zlen l) r.
Proof.
  intros n l r H. unfold zdrop, zlen in *. rewrite skipn_app, skipn_all2 by lia. simpl.
  f_equal. lia.
Qed.
Lemma zdrop_app_le : forall n l r, 0 <= n <= zlen l -> zdrop n (l ++ r) = zdrop n l ++ r.
Proof.
  intros n l r H. unfold zdrop, zlen in *. rewrite skipn_app.
  replace (Z.to_nat n - length l)%nat with 0%nat by lia. reflexivity.
Qed.
Lemma ztake_app_le : forall n l r, n <= zlen l -> ztake n (l ++ r) = ztake n l.
Proof.
  intros n l r H. unfold ztake, zlen in *. rewrite firstn_app.
  replace (Z.to_nat n - length l)%nat with 0%nat by lia. simpl. apply app_nil_r.
Qed.
Lemma ztake_app_ge : forall n l r, zlen l <= n -> ztake n (l ++ r) = l ++ ztake (n - zlen l) r.
Proof.
  intros n l r H. unfold ztake, zlen in *. rewrite firstn_app, firstn_all2 by lia. f_equal. f_equal. lia.
Qed.
Lemma ztake_app_exact : forall l r, ztake (zlen l) (l ++ r) = l.
Proof. intros. rewrite ztake_app_le by lia. apply ztake_all. lia. Qed.
Lemma zdrop_app_exact : forall l r, zdrop (zlen l) (l ++ r) = r.
Proof. intros. rewrite zdrop_app_ge by lia. apply zdrop_0. lia. Qed.

Lemma ztake_ztake : forall a b l, ztake a (ztake b l) = ztake (Z.min a b) l.
Proof.
  intros. unfold ztake. rewrite firstn_firstn. f_equal. lia.
Qed.

Lemma znth_app_l : forall d i l r, i < zlen l -> znth d i (l ++ r) = znth d i l.
Proof.
  intros d i l r H. unfold znth, zlen in *. destruct (Z.ltb_spec i 0); auto. apply app_nth1. lia.
Qed.
Lemma znth_app_r : forall d i l r, zlen l <= i -> znth d i (l ++ r) = znth d (i - zlen l) r.
Proof.
  intros d i l r H. unfold znth, zlen in *. destruct (Z.ltb_spec i 0), (Z.ltb_spec (i - Z.of_nat (length l)) 0); try lia.
  rewrite app_nth2 by lia. f_equal. lia.
Qed.
Lemma znth_zdrop : forall d i n l, 0 <= i -> 0 <= n -> znth d i (zdrop n l) = znth d (i + n) l.
Proof.
  intros d i n l Hi Hn. unfold znth, zdrop.
  destruct (Z.ltb_spec i 0), (Z.ltb_spec (i + n) 0); try lia.
  rewrite Z2Nat.inj_add by lia. generalize (Z.to_nat i) (Z.to_nat n). clear. intros i n. revert l.
  induction n as [|n IH]; intro l; simpl.
  - rewrite Nat.add_0_r. auto.
  - rewrite Nat.add_succ_r. destruct l; simpl; auto. destruct i; auto.
Qed.
Lemma znth_ztake : forall d i n l, 0 <= i < n -> znth d i (ztake n l) = znth d i l.
Proof.
  intros d i n l H. unfold znth, ztake. destruct (Z.ltb_spec i 0); try lia.
  assert (Hn : (Z.to_nat i < Z.to_nat n)%nat) by lia. revert Hn.
  generalize (Z.to_nat i) (Z.to_nat n). clear. intros i n. revert i l.
  induction n as [|n IH]; intros i l H; [lia|]. destruct l as [|x l]; simpl; auto.
  destruct i; auto. apply IH. lia.
Qed.
Lemma znth_ext : forall d l r, zlen l = zlen r -> (forall i, 0 <= i < zlen l -> znth d i l = znth d i r) -> l = r.
Proof.
  intros d l r HL H. apply (nth_ext _ _ d d); [unfold zlen in HL; lia|].
  intros n Hn. specialize (H (Z.of_nat n)). unfold znth in H.
  destruct (Z.ltb_spec (Z.of_nat n) 0); [lia|]. rewrite Nat2Z.id in H. apply H. unfold zlen. lia.
Qed.
Lemma znth_In : forall d i l, 0 <= i < zlen l -> In (znth d i l) l.
Proof.
  intros d i l H. unfold znth, zlen in *. destruct (Z.ltb_spec i 0); [lia|]. apply nth_In. lia.
Qed.
End L.

Lemma zlen_map : forall A B (f : A -> B) l, zlen (map f l) = zlen l.
Proof. intros. unfold zlen. rewrite map_length. auto. Qed.
Lemma znth_map : forall A B (f : A -> B) d d' i l, 0 <= i < zlen l -> znth d' i (map f l) = f (znth d i l).
Proof.
  intros A B f d d' i l H. unfold znth, zlen in *. destruct (Z.ltb_spec i 0); [lia|].
  rewrite (nth_indep _ d' (f d)) by (rewrite map_length; lia). apply map_nth.
Qed.
