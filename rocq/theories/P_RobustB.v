(** Breakdown of the robust mean; the robust standard deviation is always defined. *)
From Coq Require Import List ZArith QArith Qcanon Qcabs Bool Arith Lia Lqa Permutation Sorted.
From Verif Require Import M_Robust S_Robust P_Robust P_RobustA.
Import ListNotations.
Open Scope Qc_scope.

Lemma devs_len c l : length (devs c l) = length l. Proof. apply map_length. Qed.
Lemma devs_nonneg c l x : In x (devs c l) -> 0 <= x.
Proof. intro H. apply in_map_iff in H. destruct H as (y & <- & _). apply Qcabs_nonneg. Qed.
Lemma item_in l i : (i < length l)%nat -> In (item l i) l. Proof. intro. apply nth_In. assumption. Qed.
Lemma median_nonneg l m : (forall x, In x l -> 0 <= x) -> median l = Some m -> 0 <= m.
Proof.
  intros P H. apply median_mid in H. destruct H as [N ->]. rewrite half_eq.
  assert (Hl : (length l <> 0)%nat) by (destruct l; [congruence|discriminate]). assert (B := half_of _ Hl).
  assert (A1 : 0 <= item (sort l) ((length l - 1) / 2)).
  { apply P. eapply Permutation_in; [symmetry; apply sort_perm|]. apply item_in. rewrite sort_length. apply B. }
  assert (A2 : 0 <= item (sort l) (length l / 2)).
  { apply P. eapply Permutation_in; [symmetry; apply sort_perm|]. apply item_in. rewrite sort_length. apply B. }
  revert A1 A2. generalize (item (sort l) ((length l - 1) / 2)), (item (sort l) (length l / 2)). qcx.
Qed.
(** Of numbers not below 0 more than half are not above twice the median. *)
Lemma twice_median l m : (forall x, In x l -> 0 <= x) -> median l = Some m -> (length l / 2 + 1 <= count (fun x => qle x (m + m)) l)%nat.
Proof.
  intros P H. apply median_mid in H. destruct H as [N E].
  assert (Hl : (length l <> 0)%nat) by (destruct l; [congruence|discriminate]). assert (B := half_of _ Hl).
  rewrite (count_perm _ _ _ (sort_perm l)).
  assert (A1 : 0 <= item (sort l) ((length l - 1) / 2)).
  { apply P. eapply Permutation_in; [symmetry; apply sort_perm|]. apply item_in. rewrite sort_length. apply B. }
  assert (I : qle (item (sort l) (length l / 2)) (m + m) = true).
  { apply qle_true. rewrite E, half_eq. revert A1. generalize (item (sort l) ((length l - 1) / 2)), (item (sort l) (length l / 2)). qcx. }
  apply (down_count (fun x => qle x (m + m))) in I; [lia|apply sort_sorted|rewrite sort_length; lia|].
  intros x y L. rewrite !qle_true. intro. eapply Qcle_trans; eassumption.
Qed.

Lemma div_by c (d e : Qc) : e * d = 1 -> c / d = e * c.
Proof. intro H. assert (d <> 0) by (intros ->; rewrite Qcmult_0_r in H; discriminate). replace e with (1 / d) by (rewrite <- H; field; assumption). field. assumption. Qed.
Lemma div_6745 x : x / dec 6745 10000 = dec 10000 6745 * x. Proof. apply div_by. apply Qc_is_canon. reflexivity. Qed.
Lemma div_8 x : x / dec 8 10 = dec 10 8 * x. Proof. apply div_by. apply Qc_is_canon. reflexivity. Qed.

(** The deviation found: at least half of the points are within 0.6745 of it and more than half within twice that. *)
Lemma mad_facts c l mad : l <> [] -> max_abs_dev c l = Some mad ->
  0 <= mad /\
  (epsilon <= mad ->
   ((length l + 1) / 2 <= count (fun x => qle (Qcabs (x - c)) (dec 6745 10000 * mad)) l)%nat /\
   (length l / 2 + 1 <= count (fun x => qle (Qcabs (x - c)) (dec 13490 10000 * mad)) l)%nat).
Proof.
  intros N H. unfold max_abs_dev in H.
  destruct (median (devs c l)) as [m|] eqn:E; [|discriminate].
  assert (Pm : 0 <= m) by (eapply median_nonneg; [apply devs_nonneg|exact E]).
  assert (B1 := below_median _ _ E). rewrite devs_len in B1. unfold devs in B1. rewrite count_map in B1.
  assert (B2 := twice_median _ _ (devs_nonneg c l) E). rewrite devs_len in B2. unfold devs in B2. rewrite count_map in B2.
  rewrite div_6745 in H. destruct (qlt (dec 10000 6745 * m) epsilon) eqn:Q.
  - apply qlt_true in Q. destruct (qmean (devs c l)) as [a|] eqn:Ea; [|discriminate]. injection H as <-. rewrite div_8.
    assert (Pa : 0 <= a).
    { assert (M := qmean_mul _ _ Ea). destruct M as [M1 M2]. rewrite devs_len in M1.
      assert (0 <= qsum (devs c l)).
      { replace 0 with (qsum (map (fun _ => 0) l)) by (rewrite sum_const; ring). unfold devs. apply sum_le. intros. apply Qcabs_nonneg. }
      apply (Qcmult_lt_0_le_reg_r _ _ (qn (length l))); [apply qn_pos; destruct l; [congruence|discriminate]|]. rewrite M1. rewrite Qcmult_0_l. assumption. }
    split; [revert Pa; qcx|]. intro L. split.
    + etransitivity; [exact B1|]. apply count_impl. intros x _. rewrite !qle_true. intro Hx. eapply Qcle_trans; [exact Hx|].
      revert Q L. unfold epsilon. clear. qcl.
    + etransitivity; [exact B2|]. apply count_impl. intros x _. rewrite !qle_true. intro Hx. eapply Qcle_trans; [exact Hx|].
      revert Q L. unfold epsilon. clear. qcl.
  - injection H as <-. split; [revert Pm; qcx|]. intros _. split.
    + etransitivity; [exact B1|]. apply count_impl. intros x _. rewrite !qle_true. intro Hx. eapply Qcle_trans; [exact Hx|]. clear. qcl.
    + etransitivity; [exact B2|]. apply count_impl. intros x _. rewrite !qle_true. intro Hx. eapply Qcle_trans; [exact Hx|]. clear. qcl.
Qed.
Lemma mad_exists c l : l <> [] -> exists mad, max_abs_dev c l = Some mad.
Proof.
  intro N. unfold max_abs_dev. assert (N' : devs c l <> []) by (destruct l; [congruence|discriminate]).
  destruct (median_exists _ N') as [m ->]. destruct (qmean_some _ N') as [a ->].
  destruct (qlt _ _); eexists; reflexivity.
Qed.
(** With most numbers between a and b, and no value repeated too often, the deviation is bounded. *)
Lemma mad_most a b l c mad : most a b l -> spread_out l -> a <= c <= b -> max_abs_dev c l = Some mad ->
  epsilon <= mad /\ mad <= dec 10000 6745 * (b - a).
Proof.
  intros M S C H. unfold max_abs_dev in H.
  destruct (median (devs c l)) as [m|] eqn:E; [|discriminate].
  assert (Mm : 0 <= m <= b - a).
  { eapply median_most; [|exact E]. unfold most in *. rewrite devs_len. rewrite inside_count in *. unfold devs. rewrite count_map.
    eapply Nat.lt_le_trans; [exact M|]. apply Nat.mul_le_mono_l. apply count_impl. intros x _ Hx. apply andb_true_iff in Hx.
    rewrite !qle_true in Hx. apply andb_true_iff. rewrite !qle_true. split; [apply Qcabs_nonneg|].
    apply abs_le. destruct C as [C1 C2], Hx as [H1 H2]. split; revert C1 C2 H1 H2; clear; qcl. }
  rewrite div_6745 in H. destruct (qlt (dec 10000 6745 * m) epsilon) eqn:Q.
  - exfalso. apply qlt_true in Q. assert (B := below_median _ _ E). rewrite devs_len in B. unfold devs in B. rewrite count_map in B.
    specialize (S (c - m) (c + m)). rewrite inside_count in S.
    assert (K : (count (fun x => qle (Qcabs (x - c)) m) l <= count (fun x => qle (c - m) x && qle x (c + m)) l)%nat).
    { apply count_impl. intros x _. rewrite qle_true, abs_le, andb_true_iff, !qle_true. intros [H1 H2]. split; revert H1 H2; clear; qcl. }
    assert (T : (2 * count (fun x => qle (c - m) x && qle x (c + m)) l < length l)%nat).
    { apply S. revert Q. unfold epsilon. clear. qcl. }
    assert (P := Nat.div_mod (length l + 1) 2 ltac:(lia)).
    assert (Nat.modulo (length l + 1) 2 < 2)%nat by (apply Nat.mod_upper_bound; lia). lia.
  - injection H as <-. apply qlt_false in Q. split; [exact Q|]. destruct Mm as [_ M2]. revert M2. clear. qcl.
Qed.
Lemma most_ne a b l : most a b l -> l <> []. Proof. intros M ->. unfold most in M. cbn in M. lia. Qed.

Theorem mean_most a b cut data v : most a b data -> spread_out data -> 0 <= cut -> mean cut data = Num v ->
  a - dec 3 1 * cut * cut * (b - a) <= v <= b + dec 3 1 * cut * cut * (b - a).
Proof.
  intros M S Pc H. assert (N := most_ne _ _ _ M).
  destruct (median_exists _ N) as [c Hc]. destruct (mad_exists c _ N) as [mad Hm].
  assert (C := median_most _ _ _ _ M Hc). destruct (mad_most _ _ _ _ _ M S C Hm) as [_ U]. destruct (mad_facts _ _ _ N Hm) as [P _].
  assert (K := mean_near _ _ _ _ _ Hc Hm P Pc H). assert (L := correction_low cut).
  set (k := correction cut) in *. clearbody k. set (d := v - c) in *.
  assert (A : 0 <= Qcabs d) by apply Qcabs_nonneg.
  assert (A2 : Qcabs d <= dec 3 1 * cut * cut * (b - a)).
  { assert (Pq : 0 <= cut * cut) by (apply mul_nonneg; assumption).
    assert (T1 : Qcabs d * dec 537 1000 <= Qcabs d * k) by (apply mul_le; try assumption; [discriminate|apply Qcle_refl]).
    assert (T2 : cut * cut * mad <= cut * cut * (dec 10000 6745 * (b - a))) by (apply mul_le; try assumption; apply Qcle_refl).
    assert (T3 : Qcabs d * dec 537 1000 <= cut * cut * (dec 10000 6745 * (b - a))) by (eapply Qcle_trans; [exact T1|]; eapply Qcle_trans; eassumption).
    replace (cut * cut * (dec 10000 6745 * (b - a))) with (dec 10000 6745 * (cut * cut * (b - a))) in T3 by ring.
    replace (dec 3 1 * cut * cut * (b - a)) with (dec 3 1 * (cut * cut * (b - a))) by ring.
    assert (Pw : 0 <= cut * cut * (b - a)) by (apply mul_nonneg; [exact Pq|]; destruct C as [C1 C2]; revert C1 C2; clear; qcx).
    revert T3 Pw. generalize (Qcabs d), (cut * cut * (b - a)). clear. qcx. }
  apply abs_le in A2. unfold d in A2. clear -A2 C. revert A2. generalize (dec 3 1 * cut * cut * (b - a)). intros w [A1 A2]. destruct C as [C1 C2].
  split; revert A1 A2 C1 C2; qcl.
Qed.
