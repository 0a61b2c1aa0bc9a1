(** The robust mean and standard deviation. *)
From Coq Require Import List ZArith QArith Qcanon Qcabs Bool Arith Lia Lqa Permutation Sorted.
From Verif Require Import M_Robust S_Robust P_Robust.
Import ListNotations.
Open Scope Qc_scope.

Lemma qn_S n : qn (S n) = qn n + 1.
Proof. apply Qc_is_canon. unfold qn, Qcplus. cbn [this Q2Qc]. rewrite !Qred_correct.
  rewrite Nat2Z.inj_succ. unfold Z.succ. rewrite inject_Z_plus. reflexivity. Qed.
Lemma qn_0 : qn 0 = 0. Proof. reflexivity. Qed.
Lemma qn_nonneg n : 0 <= qn n.
Proof. induction n; [discriminate|]. rewrite qn_S. revert IHn. generalize (qn n). change 1 with (dec 1 1). change 0 with (dec 0 1). qcl. Qed.
Lemma one_le_dec : 1 = dec 1 1. Proof. reflexivity. Qed.
Lemma zero_dec : 0 = dec 0 1. Proof. reflexivity. Qed.
Ltac qcx := rewrite ?one_le_dec, ?zero_dec in *; qcl.
Ltac qcy := rewrite ?one_le_dec, ?zero_dec in *; qcn.
Lemma qn_pos n : (n <> 0)%nat -> 0 < qn n.
Proof. destruct n; [congruence|]. intros _. rewrite qn_S. assert (H := qn_nonneg n). revert H. generalize (qn n). qcx. Qed.
Lemma qn_ne n : (n <> 0)%nat -> qn n <> 0.
Proof. intros H E. apply qn_pos in H. rewrite E in H. exact (Qclt_not_eq _ _ H eq_refl). Qed.
Lemma qn_le a b : (a <= b)%nat -> qn a <= qn b.
Proof. induction 1; [apply Qcle_refl|]. rewrite qn_S. revert IHle. generalize (qn a), (qn m). qcx. Qed.
Lemma qn_add a b : qn (a + b) = qn a + qn b.
Proof. induction a; [rewrite qn_0; cbn; ring|]. cbn [Nat.add]. rewrite !qn_S, IHa. ring. Qed.

(** Sums *)
Lemma qsum_cons x l : qsum (x :: l) = x + qsum l. Proof. reflexivity. Qed.
Lemma qsum_perm l m : Permutation l m -> qsum l = qsum m.
Proof. induction 1; rewrite ?qsum_cons; try congruence. ring. Qed.
Lemma qmean_mul l m : qmean l = Some m -> m * qn (length l) = qsum l /\ l <> [].
Proof.
  unfold qmean. destruct l as [|x l]; [discriminate|]. intro H.
  pose proof (f_equal (fun o => match o with Some v => v | None => m end) H) as H'. cbv beta iota in H'. subst m.
  split; [|discriminate]. field. apply qn_ne. discriminate.
Qed.
Lemma sum_le (f g : Qc -> Qc) l : (forall x, In x l -> f x <= g x) -> qsum (map f l) <= qsum (map g l).
Proof.
  induction l as [|x l IH]; intro H; cbn [map]; rewrite ?qsum_cons; [apply Qcle_refl|].
  assert (A := H x (or_introl eq_refl)). assert (B := IH (fun y Hy => H y (or_intror Hy))).
  revert A B. generalize (f x), (g x), (qsum (map f l)), (qsum (map g l)). qcl.
Qed.
Lemma sum_const c (l : list Qc) : qsum (map (fun _ => c) l) = c * qn (length l).
Proof. induction l; cbn [map length]; rewrite ?qsum_cons, ?qn_S; [rewrite qn_0; cbn; ring|rewrite IHl; ring]. Qed.
Lemma sum_plus (f g : Qc -> Qc) l : qsum (map (fun x => f x + g x) l) = qsum (map f l) + qsum (map g l).
Proof. induction l; cbn [map]; rewrite ?qsum_cons; [cbn; ring|rewrite IHl; ring]. Qed.
Lemma sum_scale k (f : Qc -> Qc) l : qsum (map (fun x => k * f x) l) = k * qsum (map f l).
Proof. induction l; cbn [map]; rewrite ?qsum_cons; [cbn; ring|rewrite IHl; ring]. Qed.
Lemma sum_ext (f g : Qc -> Qc) l : (forall x, In x l -> f x = g x) -> qsum (map f l) = qsum (map g l).
Proof. intro H. f_equal. apply map_ext_in. exact H. Qed.
Lemma sum_count (p : Qc -> bool) l : qsum (map (fun x => if p x then 1 else 0) l) = qn (count p l).
Proof. unfold count. induction l as [|x l IH]; cbn [map filter]; rewrite ?qsum_cons; [reflexivity|]. destruct (p x); cbn [length]; rewrite ?qn_S, IH; ring. Qed.
Lemma sum_filter (p : Qc -> bool) (f : Qc -> Qc) l : qsum (map f (filter p l)) = qsum (map (fun x => if p x then f x else 0) l).
Proof. induction l as [|x l IH]; cbn [map filter]; rewrite ?qsum_cons; [reflexivity|]. destruct (p x); cbn [map]; rewrite ?qsum_cons, IH; ring. Qed.
Lemma map_self (l : list Qc) : map (fun x => x) l = l. Proof. apply map_id. Qed.

Lemma mean_bounds l m a b : qmean l = Some m -> (forall x, In x l -> a <= x <= b) -> a <= m <= b.
Proof.
  intros H B. apply qmean_mul in H. destruct H as [E N].
  assert (P : 0 < qn (length l)) by (apply qn_pos; destruct l; [congruence|discriminate]).
  assert (A1 : a * qn (length l) <= qsum l).
  { rewrite <- sum_const. assert (L := sum_le (fun _ => a) (fun x => x) l). rewrite map_self in L. apply L. intros x Hx. apply B in Hx. apply Hx. }
  assert (A2 : qsum l <= b * qn (length l)).
  { rewrite <- sum_const. assert (L := sum_le (fun x => x) (fun _ => b) l). rewrite map_self in L. apply L. intros x Hx. apply B in Hx. apply Hx. }
  rewrite <- E in *. split; eapply Qcmult_lt_0_le_reg_r; eassumption.
Qed.

Lemma mul_nonneg a b : 0 <= a -> 0 <= b -> 0 <= a * b.
Proof. intros. replace 0 with (0 * b) by ring. apply Qcmult_le_compat_r; assumption. Qed.
Lemma mul_pos a b : 0 < a -> 0 < b -> 0 < a * b.
Proof. intros. replace 0 with (0 * b) by ring. apply Qcmult_lt_compat_r; assumption. Qed.
Lemma sq_nonneg x : 0 <= sq x.
Proof. destruct (Qclt_le_dec x 0) as [H|H]; unfold sq; [|apply mul_nonneg; assumption].
  replace (x * x) with ((- x) * (- x)) by ring. apply mul_nonneg; revert H; qcx. Qed.
Lemma mul_le a b c d : 0 <= a -> 0 <= c -> a <= b -> c <= d -> a * c <= b * d.
Proof.
  intros Ha Hc H1 H2. apply Qcle_trans with (b * c).
  - apply Qcmult_le_compat_r; assumption.
  - rewrite (Qcmult_comm b c), (Qcmult_comm b d). apply Qcmult_le_compat_r; [assumption|]. exact (Qcle_trans _ _ _ Ha H1).
Qed.
Lemma sq_le_inv x y : 0 <= y -> sq x <= sq y -> x <= y /\ - y <= x.
Proof.
  intros Hy H. split.
  - destruct (Qclt_le_dec y x) as [L|]; [|assumption]. exfalso. unfold sq in H.
    assert (K : y * y < x * x).
    { apply Qcle_lt_trans with (y * x); [apply mul_le; try exact Hy; [apply Qcle_refl|apply Qclt_le_weak; exact L]|].
      apply Qcmult_lt_compat_r; [eapply Qcle_lt_trans; eassumption|exact L]. }
    exact (Qclt_not_le _ _ K H).
  - destruct (Qclt_le_dec x (- y)) as [L|]; [|assumption]. exfalso. unfold sq in H.
    assert (L' : y < - x) by (revert L; qcl).
    assert (K : y * y < (- x) * (- x)).
    { apply Qcle_lt_trans with (y * (- x)); [apply mul_le; try exact Hy; [apply Qcle_refl|apply Qclt_le_weak; exact L']|].
      apply Qcmult_lt_compat_r; [eapply Qcle_lt_trans; eassumption|exact L']. }
    replace (- x * - x) with (x * x) in K by ring. exact (Qclt_not_le _ _ K H).
Qed.
Lemma sq_le x y : - y <= x -> x <= y -> sq x <= sq y.
Proof.
  intros H1 H2. unfold sq. destruct (Qclt_le_dec x 0) as [L|L].
  - replace (x * x) with ((- x) * (- x)) by ring. apply mul_le; revert H1 L; qcx.
  - apply mul_le; assumption.
Qed.
Lemma abs_le x y : Qcabs x <= y <-> - y <= x /\ x <= y.
Proof. rewrite Qcabs_Qcle_condition. reflexivity. Qed.

Lemma qmean_some l : l <> [] -> exists m, qmean l = Some m.
Proof. destruct l; [congruence|]. eexists. reflexivity. Qed.
(** The variance is not above the mean square distance from any point. *)
Lemma variance_bound l m c r : qmean l = Some m -> (forall x, In x l -> Qcabs (x - c) <= r) -> variance m l <= sq r.
Proof.
  intros H B. assert (H' := H). apply qmean_mul in H'. destruct H' as [E N].
  assert (P : 0 < qn (length l)) by (apply qn_pos; destruct l; [congruence|discriminate]).
  assert (S : qsum (map (fun x => sq (x - m)) l) = qsum (map (fun x => sq (x - c)) l) - qn (length l) * sq (m - c)).
  { assert (E1 : qsum (map (fun x => sq (x - m)) l) = qsum (map (fun x => sq x) l) + (- dec 2 1 * m * qsum l + sq m * qn (length l))).
    { rewrite <- (sum_const (sq m) l). replace (qsum l) with (qsum (map (fun x => x) l)) by (rewrite map_self; reflexivity). rewrite <- (sum_scale (- dec 2 1 * m)). rewrite <- !sum_plus. apply sum_ext. intros x _. unfold sq. change (dec 2 1) with (1+1). ring. }
    assert (E2 : qsum (map (fun x => sq (x - c)) l) = qsum (map (fun x => sq x) l) + (- dec 2 1 * c * qsum l + sq c * qn (length l))).
    { rewrite <- (sum_const (sq c) l). replace (qsum l) with (qsum (map (fun x => x) l)) by (rewrite map_self; reflexivity). rewrite <- (sum_scale (- dec 2 1 * c)). rewrite <- !sum_plus. apply sum_ext. intros x _. unfold sq. change (dec 2 1) with (1+1). ring. }
    rewrite E1, E2, <- E. unfold sq. change (dec 2 1) with (1+1). ring. }
  assert (T : qsum (map (fun x => sq (x - c)) l) <= sq r * qn (length l)).
  { rewrite <- sum_const. apply sum_le. intros x Hx. apply B in Hx. apply abs_le in Hx. apply sq_le; apply Hx. }
  apply (Qcmult_lt_0_le_reg_r _ _ (qn (length l))); [exact P|]. unfold variance.
  replace (qsum (map (fun x => sq (x - m)) l) / qn (length l) * qn (length l)) with (qsum (map (fun x => sq (x - m)) l))
    by (field; apply qn_ne; destruct l; [congruence|discriminate]).
  rewrite S. assert (0 <= qn (length l) * sq (m - c)) by (apply mul_nonneg; [apply Qclt_le_weak; exact P|apply sq_nonneg]).
  revert T H0. generalize (qsum (map (fun x => sq (x - c)) l)), (sq r * qn (length l)), (qn (length l) * sq (m - c)). qcx.
Qed.

(** The constant of mean() *)
Lemma correction_low cut : dec 537 1000 <= correction cut.
Proof.
  unfold correction. set (s := if qlt 1 cut then cut else 1).
  assert (1 <= s).
  { unfold s. destruct (qlt 1 cut) eqn:E; [apply qlt_true in E; apply Qclt_le_weak; exact E|apply Qcle_refl]. }
  clearbody s. destruct (qle s (dec 45 10)) eqn:E.
  - apply qle_true in E. revert H E. clear. rewrite ?one_le_dec. qc_down. intros H E.
    generalize dependent (this s). intros q H E. clear s.
    assert (Hq : (0 <= (q - 1) * ((q - (53544#10000)) * (q - (53544#10000))))%Q).
    { apply Qmult_le_0_compat; [lra|]. generalize (q - (53544 # 10000))%Q. intro z. nra. }
    nra.
  - discriminate.
Qed.

Lemma mean_near cut data c mad v : median data = Some c -> max_abs_dev c data = Some mad -> 0 <= mad -> 0 <= cut ->
  mean cut data = Num v -> Qcabs (v - c) * correction cut <= cut * cut * mad.
Proof.
  intros Hc Hm Pm Pc H. unfold mean in H. rewrite Hc, Hm in H.
  destruct (qmean (filter _ data)) as [m1|] eqn:E1; [|discriminate].
  destruct (qmean (filter (fun x => within_root _ _ _ _) data)) as [m2|] eqn:E2; [|discriminate].
  destruct (3 <? _)%nat; [|discriminate]. injection H as <-.
  set (k := correction cut) in *. assert (Pk : 0 < k) by (unfold k; eapply Qclt_le_trans; [|apply correction_low]; reflexivity).
  assert (V := variance_bound _ _ c (cut * mad) E1).
  assert (V' : variance m1 (filter (fun x => qle (Qcabs (x - c)) (cut * mad)) data) <= sq (cut * mad)).
  { apply V. intros x Hx. apply filter_In in Hx. apply qle_true. apply Hx. }
  clear V. set (va := variance _ _) in *. clearbody va.
  assert (B : forall x, In x (filter (fun x => within_root (x - c) cut va k) data) -> c - cut * cut * mad / k <= x <= c + cut * cut * mad / k).
  { intros x Hx. apply filter_In in Hx. destruct Hx as [_ Hx]. unfold within_root in Hx. destruct (qlt cut 0) eqn:E; [discriminate|].
    apply qle_true in Hx.
    assert (S : sq ((x - c) * k) <= sq (cut * cut * mad)).
    { eapply Qcle_trans; [exact Hx|]. replace (sq (cut * cut * mad)) with (sq cut * sq (cut * mad)) by (unfold sq; ring).
      rewrite !(Qcmult_comm (sq cut)). apply Qcmult_le_compat_r; [exact V'|apply sq_nonneg]. }
    apply sq_le_inv in S; [|apply mul_nonneg; [apply mul_nonneg|]; assumption].
    assert (K : cut * cut * mad = cut * cut * mad / k * k) by (field; intros ->; exact (Qclt_not_eq _ _ Pk eq_refl)).
    rewrite K in S. destruct S as [S1 S2].
    assert (T1 : x - c <= cut * cut * mad / k) by (apply (Qcmult_lt_0_le_reg_r _ _ k); assumption).
    assert (T2 : - (cut * cut * mad / k) <= x - c).
    { apply (Qcmult_lt_0_le_reg_r _ _ k); [assumption|]. replace (- (cut * cut * mad / k) * k) with (- (cut * cut * mad / k * k)) by ring. exact S2. }
    revert T1 T2. generalize (cut * cut * mad / k). clear. qcl. }
  assert (M := mean_bounds _ _ _ _ E2 B).
  assert (K : cut * cut * mad = cut * cut * mad / k * k) by (field; intros ->; exact (Qclt_not_eq _ _ Pk eq_refl)).
  rewrite K. apply Qcmult_le_compat_r; [|apply Qclt_le_weak; exact Pk]. apply abs_le.
  revert M. generalize (cut * cut * mad / k). clear. intros q [A B]. split; revert A B; qcl.
Qed.
