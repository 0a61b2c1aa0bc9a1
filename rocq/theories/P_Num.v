From Coq Require Import ZArith QArith Qround Qabs Bool Lqa Lia.
From Verif Require Export M_Num.
Open Scope Z_scope.

Lemma floor_spec : forall x, (inject_Z (Qfloor x) <= x /\ x < inject_Z (Qfloor x) + 1)%Q.
Proof.
  intro x. split; [apply Qfloor_le|]. pose proof (Qlt_floor x) as H. rewrite inject_Z_plus in H. exact H.
Qed.
Lemma injZ_lt : forall a b, (inject_Z a < inject_Z b)%Q <-> a < b.
Proof. intros. rewrite Zlt_Qlt. reflexivity. Qed.
Lemma injZ_le : forall a b, (inject_Z a <= inject_Z b)%Q <-> a <= b.
Proof. intros. rewrite Zle_Qle. reflexivity. Qed.
Lemma injZ_eq : forall a b, (inject_Z a == inject_Z b)%Q <-> a = b.
Proof. intros. split; [apply inject_Z_injective|intros ->; reflexivity]. Qed.
Lemma floor_eq : forall x z, (inject_Z z <= x)%Q -> (x < inject_Z z + 1)%Q -> Qfloor x = z.
Proof.
  intros x z H1 H2. destruct (floor_spec x) as [F1 F2].
  assert (z < Qfloor x + 1) by (apply injZ_lt; rewrite inject_Z_plus; change (inject_Z 1) with 1%Q; lra).
  assert (Qfloor x < z + 1) by (apply injZ_lt; rewrite inject_Z_plus; change (inject_Z 1) with 1%Q; lra). lia.
Qed.
Lemma Qle_bool_t : forall a b, Qle_bool a b = true <-> (a <= b)%Q.
Proof. apply Qle_bool_iff. Qed.
Lemma Qle_bool_f : forall a b, Qle_bool a b = false <-> (b < a)%Q.
Proof.
  intros a b. split; intro H.
  - apply Qnot_le_lt. intro C. apply Qle_bool_iff in C. congruence.
  - destruct (Qle_bool a b) eqn:E; auto. apply Qle_bool_iff in E. lra.
Qed.
Ltac qle := match goal with
  | |- context [Qle_bool ?a ?b] => let E := fresh "E" in destruct (Qle_bool a b) eqn:E; [apply Qle_bool_t in E|apply Qle_bool_f in E]
  | H : context [Qle_bool ?a ?b] |- _ => let E := fresh "E" in destruct (Qle_bool a b) eqn:E; [apply Qle_bool_t in E|apply Qle_bool_f in E]
  end.

Global Instance inject_Z_compat : Proper (eq ==> Qeq) inject_Z.
Proof. intros x y ->. reflexivity. Qed.
Global Instance py_int_compat : Proper (Qeq ==> eq) py_int.
Proof. intros x y H. unfold py_int. rewrite (Qfloor_comp _ _ H), (Qfloor_comp (- x) (- y)) by (rewrite H; reflexivity). rewrite H. reflexivity. Qed.
Global Instance py_round_compat : Proper (Qeq ==> eq) py_round.
Proof. intros x y H. unfold py_round. cbv zeta. rewrite (Qfloor_comp _ _ H). repeat rewrite H. reflexivity. Qed.

Lemma py_int_floor : forall x, (0 <= x)%Q -> py_int x = Qfloor x.
Proof. intros x H. unfold py_int. qle; [reflexivity|lra]. Qed.
Lemma py_int_neg : forall x, (x < 0)%Q -> py_int x = - Qfloor (- x).
Proof. intros x H. unfold py_int. qle; [lra|reflexivity]. Qed.
Lemma py_int_Z : forall z, py_int (inject_Z z) = z.
Proof.
  intro z. unfold py_int. qle; [apply Qfloor_Z|]. rewrite <- inject_Z_opp, Qfloor_Z. lia.
Qed.
Lemma py_int_pos_spec : forall x, (0 <= x)%Q -> (inject_Z (py_int x) <= x < inject_Z (py_int x) + 1)%Q.
Proof. intros x H. rewrite py_int_floor by auto. apply floor_spec. Qed.
Lemma py_int_neg_spec : forall x, (x < 0)%Q -> (inject_Z (py_int x) - 1 < x <= inject_Z (py_int x))%Q.
Proof.
  intros x H. rewrite py_int_neg by auto. destruct (floor_spec (- x)) as [A B].
  rewrite inject_Z_opp. split; lra.
Qed.
Lemma py_int_close : forall x, (Qabs (x - inject_Z (py_int x)) < 1)%Q.
Proof.
  intro x. destruct (Qlt_le_dec x 0) as [H|H].
  - apply py_int_neg_spec in H. apply Qabs_Qlt_condition. lra.
  - apply py_int_pos_spec in H. apply Qabs_Qlt_condition. lra.
Qed.

Lemma py_round_spec : forall x, (Qabs (x - inject_Z (py_round x)) <= 1 # 2)%Q.
Proof.
  intro x. unfold py_round. destruct (floor_spec x) as [A B]. apply Qabs_Qle_condition.
  repeat qle; try destruct (Z.even _); rewrite ?inject_Z_plus; change (inject_Z 1) with 1%Q; lra.
Qed.
Lemma py_round_near : forall x z, (Qabs (x - inject_Z z) < 1 # 2)%Q -> py_round x = z.
Proof.
  intros x z H. pose proof (py_round_spec x) as R. apply Qabs_Qle_condition in R. apply Qabs_Qlt_condition in H.
  assert (py_round x < z + 1) by (apply injZ_lt; rewrite inject_Z_plus; change (inject_Z 1) with 1%Q; lra).
  assert (z < py_round x + 1) by (apply injZ_lt; rewrite inject_Z_plus; change (inject_Z 1) with 1%Q; lra). lia.
Qed.
Lemma py_round_Z : forall z, py_round (inject_Z z) = z.
Proof. intro z. apply py_round_near. setoid_replace (inject_Z z - inject_Z z)%Q with 0%Q by ring. reflexivity. Qed.
Lemma py_round2_near : forall x z, (Qabs (x - inject_Z z) < 1 # 200)%Q -> (py_round2 x == inject_Z z)%Q.
Proof.
  intros x z H. unfold py_round2. rewrite (py_round_near _ (100 * z)).
  - rewrite inject_Z_mult. change (inject_Z 100) with 100%Q. field.
  - rewrite inject_Z_mult. change (inject_Z 100) with 100%Q. apply Qabs_Qlt_condition in H. apply Qabs_Qlt_condition. lra.
Qed.
(** Floor of a quotient of integers. *)
Lemma floor_div : forall a b, 0 < b -> Qfloor (inject_Z a / inject_Z b) = a / b.
Proof.
  intros a b Hb. assert (B : (0 < inject_Z b)%Q) by (change 0%Q with (inject_Z 0); apply injZ_lt; lia).
  apply floor_eq.
  - apply Qle_shift_div_l; auto. rewrite <- inject_Z_mult. apply injZ_le. pose proof (Z.mul_div_le a b Hb). lia.
  - apply Qlt_shift_div_r; auto. change 1%Q with (inject_Z 1). rewrite <- inject_Z_plus, <- inject_Z_mult. apply injZ_lt.
    pose proof (Z.mod_pos_bound a b Hb). pose proof (Z.div_mod a b ltac:(lia)). lia.
Qed.
