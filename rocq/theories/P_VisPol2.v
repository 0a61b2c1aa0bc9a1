(** Proofs about PolarizationDataSet.append, the Stokes parameters and repeated gains. *)
From Coq Require Import String List ZArith QArith Qcanon Bool Lia.
From Verif Require Import M_Vis M_VisPol S_Vis S_VisPol P_Base P_Vis P_Vis2 P_Vis3 P_VisPol.
Import ListNotations.
Open Scope Z_scope.

(** ** append *)
Lemma shape_eqb_eq : forall a b, shape_eqb a b = true <-> a = b.
Proof.
  induction a as [|x a IH]; intros [|y b]; simpl; split; intro H; try discriminate; auto.
  - apply andb_true_iff in H. destruct H as (H1 & H2). apply Nat.eqb_eq in H1. apply IH in H2. congruence.
  - inversion H. subst. rewrite Nat.eqb_refl. simpl. apply IH. auto.
Qed.

Definition consistent (p : pol3) : Prop := shape (q_wgt p) = shape (q_data p) /\ shape (q_mask p) = shape (q_data p).

Lemma shape_full : forall A B (x : B) (a : nd A), shape (full x a) = shape a.
Proof. intros A B x [l|c r]; simpl; rewrite map_length; auto. Qed.

Lemma vstack_same : forall A (a b : nd A), shape a = shape b -> exists x, vstack a b = Ok x.
Proof.
  intros A [l|c r] [l'|c' r'] H; inversion H; simpl; unfold vstack; simpl; rewrite ?H1, ?H2, Nat.eqb_refl; eauto.
Qed.
Lemma append3_iff : forall p d w m, consistent p ->
  (forall x, w = Some x -> shape x = shape d) -> (forall x, m = Some x -> shape x = shape d) ->
  (snd (append3 p d w m) = Ok tt <-> shape d = shape (q_data p)).
Proof.
  intros p d w m (CW & CM) HW HM. unfold append3.
  assert (W : shape (match w with Some w => w | None => full 1%Qc d end) = shape d) by (destruct w; [apply HW; auto|apply shape_full]).
  assert (M : shape (match m with Some w => w | None => full false d end) = shape d) by (destruct m; [apply HM; auto|apply shape_full]).
  destruct (size (q_data p) =? 0)%nat.
  - cbn [q_wgt q_data q_mask]. rewrite CW, CM.
    destruct (shape_eqb (shape (q_data p)) (shape d)) eqn:E; simpl.
    + apply shape_eqb_eq in E. split; auto.
    + split; [discriminate|]. intro X. rewrite X in E. rewrite (proj2 (shape_eqb_eq _ _) eq_refl) in E. discriminate.
  - cbn [q_wgt q_data q_mask]. rewrite CW, CM.
    split.
    + destruct (vstack (q_data p) d); [|discriminate].
      destruct (shape_eqb (shape (q_data p)) (shape d)) eqn:E; [|discriminate]. apply shape_eqb_eq in E. auto.
    + intro E. destruct (vstack_same _ (q_data p) d) as (x & ->); auto. rewrite <- E.
      rewrite (proj2 (shape_eqb_eq _ _) eq_refl). cbn [negb].
      destruct (vstack_same _ (q_wgt p) (match w with Some w => w | None => full 1%Qc d end)) as (y & ->); [congruence|].
      try rewrite (proj2 (shape_eqb_eq _ _) eq_refl). cbn [negb].
      destruct (vstack_same _ (q_mask p) (match m with Some w => w | None => full false d end)) as (z & ->); [congruence|]. reflexivity.
Qed.

(** What is left behind when one visibility is added to at least two. *)
Lemma append3_row : forall p c rows l, consistent p -> q_data p = N2 c rows -> (0 < length rows * c)%nat -> length l = c ->
  append3 p (N1 l) None None = (mk3 (N2 c (rows ++ [l])) (q_wgt p) (q_mask p), Raise ValueError).
Proof.
  intros p c rows l (CW & CM) D NZ L. unfold append3. rewrite D. simpl size.
  destruct (Nat.eqb_spec (length rows * c) 0); [lia|]. unfold vstack at 1. simpl. rewrite L, Nat.eqb_refl.
  cbn [q_wgt q_data q_mask]. rewrite CW, D. simpl. rewrite andb_comm. reflexivity.
Qed.

Lemma append3_first : forall l, l <> [] ->
  append3 (new3 None None None) (N1 l) None None = (mk3 (N1 l) (N1 []) (N1 []), Raise ValueError).
Proof. intros [|x l] H; [tauto|]. reflexivity. Qed.

(** ** Complex numbers *)
Lemma Ceq : forall x y : C, fst x = fst y -> snd x = snd y -> x = y.
Proof. intros [a b] [c d]; simpl; intros; subst; auto. Qed.

Lemma two_half : forall a, ((a + a) / two = a)%Qc.
Proof. intro a. replace (a + a)%Qc with (a * two)%Qc by (unfold two; replace (Q2Qc 2) with (1 + 1)%Qc by reflexivity; ring). unfold Qcdiv. rewrite <- Qcmult_assoc, Qcmult_inv_r; [ring|]. discriminate. Qed.
Lemma two_half' : forall a b, (b = a + a -> b / two = a)%Qc.
Proof. intros a b ->. apply two_half. Qed.

Ltac ceq := apply Ceq; unfold chalf, cadd, csub, cmul, conj, im; cbn [fst snd]; try (apply two_half'); ring.
Lemma stokes_xx : forall x y, chalf (cadd (cadd x y) (csub x y)) = x.
Proof. intros [a b] [c d]. ceq. Qed.
Lemma stokes_yy : forall x y, chalf (csub (cadd x y) (csub x y)) = y.
Proof. intros [a b] [c d]. ceq. Qed.
Lemma stokes_xy : forall x y, chalf (csub (cadd x y) (cmul im (cmul im (csub x y)))) = x.
Proof. intros [a b] [c d]. ceq. Qed.
Lemma stokes_yx : forall x y, chalf (cadd (cadd x y) (cmul im (cmul im (csub x y)))) = y.
Proof. intros [a b] [c d]. ceq. Qed.
