(** The robust standard deviation. *)
From Coq Require Import List ZArith QArith Qcanon Qcabs Bool Arith Lia Lqa Permutation Sorted.
From Verif Require Import M_Robust S_Robust P_Robust P_RobustA P_RobustB.
Import ListNotations.
Open Scope Qc_scope.

Lemma c1349 : sq (dec 13490 10000) * dec 1 36 <= 1. Proof. qcx. Qed.
Lemma eps_pos : 0 < epsilon. Proof. reflexivity. Qed.
Section Mad.
Context (c mad : Qc) (P : 0 < mad).
Lemma mad_ne : mad <> 0. Proof. intros E. rewrite E in P. exact (Qclt_not_eq _ _ P eq_refl). Qed.
Lemma u2_mul x : u2 c mad x * (dec 36 1 * sq mad) = sq (x - c).
Proof. unfold u2, sq. change (dec 36 1) with (dec 6 1 * dec 6 1). field. split; [discriminate|apply mad_ne]. Qed.
Lemma wide_pos : 0 < dec 36 1 * sq mad. Proof. apply mul_pos; [reflexivity|]. unfold sq. apply mul_pos; exact P. Qed.
Lemma u2_le x r : Qcabs (x - c) <= r * mad -> u2 c mad x <= sq r * dec 1 36.
Proof.
  intro H. apply abs_le in H. destruct H as [H1 H2]. assert (S := sq_le _ _ H1 H2).
  apply (Qcmult_lt_0_le_reg_r _ _ (dec 36 1 * sq mad)); [apply wide_pos|]. rewrite u2_mul. eapply Qcle_trans; [exact S|].
  replace (sq r * dec 1 36 * (dec 36 1 * sq mad)) with (dec 36 1 * dec 1 36 * sq (r * mad)) by (unfold sq; ring).
  replace (dec 36 1 * dec 1 36) with 1 by (apply Qc_is_canon; reflexivity). rewrite Qcmult_1_l. apply Qcle_refl.
Qed.
Lemma u2_nonneg x : 0 <= u2 c mad x. Proof. apply sq_nonneg. Qed.
Definition weight (x : Qc) : Qc := (1 - u2 c mad x) * (1 - dec 5 1 * u2 c mad x).
Definition near (r : Qc) (x : Qc) : bool := qle (Qcabs (x - c)) (r * mad).
Lemma weight_low x : - dec 8 10 + dec 15 10 * (if near (dec 13490 10000) x then 1 else 0) + dec 22 100 * (if near (dec 6745 10000) x then 1 else 0) <=
  (if qle (u2 c mad x) 1 then weight x else 0).
Proof.
  assert (N := u2_nonneg x). unfold weight.
  assert (T1 : near (dec 13490 10000) x = true -> u2 c mad x <= sq (dec 13490 10000) * dec 1 36) by (unfold near; rewrite qle_true; apply u2_le).
  assert (T2 : near (dec 6745 10000) x = true -> u2 c mad x <= sq (dec 6745 10000) * dec 1 36) by (unfold near; rewrite qle_true; apply u2_le).
  assert (T3 : near (dec 6745 10000) x = true -> near (dec 13490 10000) x = true).
  { unfold near. rewrite !qle_true. intro L. eapply Qcle_trans; [exact L|]. revert P. clear. qcx. }
  assert (T4 : near (dec 13490 10000) x = true -> qle (u2 c mad x) 1 = true).
  { intro L. apply qle_true. eapply Qcle_trans; [apply T1, L|]. exact c1349. }
  revert N T1 T2 T3 T4. generalize (near (dec 13490 10000) x), (near (dec 6745 10000) x), (qle (u2 c mad x) 1). generalize (u2 c mad x). clear.
  intros t b1 b2 b3 N T1 T2 T3 T4. destruct b1.
  - rewrite T4 by reflexivity. specialize (T1 eq_refl). destruct b2.
    + specialize (T2 eq_refl). clear T1 T3 T4. qcy.
    + clear T2 T3 T4. qcy.
  - clear T1 T4. destruct b2; [specialize (T3 eq_refl); discriminate|]. clear T2 T3. destruct b3.
    + assert (K := sq_nonneg (t - dec 6 10)). qcy.
    + discriminate.
Qed.
Lemma den_low l : ((length l + 1) / 2 <= count (near (dec 6745 10000)) l)%nat -> (length l / 2 + 1 <= count (near (dec 13490 10000)) l)%nat ->
  (3 <= length l)%nat ->
  dec 86 100 + dec 6 100 * qn (length l) <= qsum (map weight (filter (fun x => qle (u2 c mad x) 1) l)).
Proof.
  intros A B L. rewrite sum_filter.
  assert (S := sum_le _ _ l (fun x _ => weight_low x)).
  assert (E : qsum (map (fun x => - dec 8 10 + dec 15 10 * (if near (dec 13490 10000) x then 1 else 0) + dec 22 100 * (if near (dec 6745 10000) x then 1 else 0)) l)
    = - dec 8 10 * qn (length l) + dec 15 10 * qn (count (near (dec 13490 10000)) l) + dec 22 100 * qn (count (near (dec 6745 10000)) l)).
  { rewrite sum_plus. rewrite (sum_plus (fun _ => - dec 8 10)). rewrite sum_const. rewrite !(sum_scale (dec 15 10)), (sum_scale (dec 22 100)), !sum_count. ring. }
  rewrite E in S. eapply Qcle_trans; [|exact S]. clear S E.
  apply qn_le in A, B.
  assert (Q := Nat.div_mod (length l + 1) 2 ltac:(lia)). assert (R := Nat.div_mod (length l) 2 ltac:(lia)).
  assert (Nat.modulo (length l + 1) 2 < 2)%nat by (apply Nat.mod_upper_bound; lia).
  assert (Nat.modulo (length l) 2 < 2)%nat by (apply Nat.mod_upper_bound; lia).
  set (n1 := ((length l + 1) / 2)%nat) in *. set (n2 := (length l / 2)%nat) in *.
  assert (H1 : qn (length l) <= qn n1 + qn n1) by (rewrite <- qn_add; apply qn_le; lia).
  assert (H2 : qn (length l) + 1 <= qn (n2 + 1) + qn (n2 + 1)) by (rewrite <- qn_S, <- qn_add; apply qn_le; lia).
  (* odd length: both counts are at least (n+1)/2; even: more of the second *)
  assert (H3 : (qn (length l) + 1 <= qn n1 + qn n1 \/ qn (length l) + dec 2 1 <= qn (n2 + 1) + qn (n2 + 1))).
  { destruct (Nat.modulo (length l) 2) as [|[|?]] eqn:M; try lia.
    - right. replace (qn (length l) + dec 2 1) with (qn (length l + 2)) by (rewrite qn_add; reflexivity). rewrite <- qn_add. apply qn_le. lia.
    - left. rewrite <- qn_S, <- qn_add. apply qn_le. lia. }
  assert (H4 : dec 3 1 <= qn (length l)) by (change (dec 3 1) with (qn 3); apply qn_le; exact L).
  revert A B H1 H2 H3 H4. generalize (qn (length l)), (qn n1), (qn (n2 + 1)), (qn (count (near (dec 6745 10000)) l)), (qn (count (near (dec 13490 10000)) l)).
  clear. intros n a b x y A B H1 H2 H3 H4. destruct H3; qcx.
Qed.
Lemma term_high x : qle (u2 c mad x) 1 = true -> sq (x - c) * sq (sq (1 - u2 c mad x)) <= dec 3 1 * sq mad.
Proof.
  intro H. apply qle_true in H. rewrite <- u2_mul. assert (N := u2_nonneg x). revert N H. generalize (u2 c mad x). intros t N H.
  replace (t * (dec 36 1 * sq mad) * sq (sq (1 - t))) with (dec 36 1 * t * sq (sq (1 - t)) * sq mad) by (unfold sq; ring).
  apply Qcmult_le_compat_r; [|apply sq_nonneg]. clear P.
  rewrite one_le_dec, zero_dec in *. qc_down. revert N H. generalize (this t). clear. intros q N H.
  assert (G : (0 <= (2048#1000) - (452#100) * q + (36#10) * (q * q) - q * q * q)%Q).
  { assert (K : (0 <= (1 - q) * ((q - (13#10)) * (q - (13#10))))%Q).
    { apply Qmult_le_0_compat; [lra|]. generalize (q - (13#10))%Q. intro z. nra. }
    nra. }
  assert (K : (0 <= (q - (1#5)) * (q - (1#5)) * ((2048#1000) - (452#100) * q + (36#10) * (q * q) - q * q * q))%Q).
  { apply Qmult_le_0_compat; [|exact G]. generalize (q - (1#5))%Q. intro z. nra. }
  clear G. lra.
Qed.
End Mad.

Lemma near_unfold c mad r l : count (fun x => qle (Qcabs (x - c)) (r * mad)) l = count (near c mad r) l.
Proof. reflexivity. Qed.
Lemma filter_all {A} (p : A -> bool) l : (length (filter p l) <= length l)%nat.
Proof. induction l; cbn; [lia|]. destruct (p a); cbn; lia. Qed.
(** With four points there are always enough good ones. *)
Lemma std_core_ok c mad l : 0 < mad ->
  ((length l + 1) / 2 <= count (near c mad (dec 6745 10000)) l)%nat -> (length l / 2 + 1 <= count (near c mad (dec 13490 10000)) l)%nat ->
  (4 <= length l)%nat ->
  exists s, std_core c mad l = Num s /\ 0 <= s /\ s <= dec 1000 1 * sq mad.
Proof.
  intros P A B L. unfold std_core.
  set (good := filter (fun x => qle (u2 c mad x) 1) l).
  assert (G : (3 <= length good)%nat).
  { assert (K : (count (near c mad (dec 13490 10000)) l <= length good)%nat).
    { unfold good. apply count_impl. intros x _ Hx. unfold near in Hx. apply qle_true in Hx. apply (u2_le c mad P) in Hx. apply qle_true.
      eapply Qcle_trans; [exact Hx|exact c1349]. }
    assert (2 <= length l / 2)%nat by (apply Nat.div_le_lower_bound; lia). lia. }
  destruct (length good <? 3)%nat eqn:Q; [apply Nat.ltb_lt in Q; lia|]. clear Q.
  assert (D := den_low c mad P l A B ltac:(lia)). fold good in D.
  change (fun x => (1 - u2 c mad x) * (1 - dec 5 1 * u2 c mad x)) with (weight c mad).
  set (den := qsum (map (weight c mad) good)) in *.
  set (num := qsum (map _ good)).
  assert (N0 : 0 <= num).
  { unfold num. replace 0 with (qsum (map (fun _ : Qc => 0) good)) by (rewrite sum_const; ring). apply sum_le. intros x _. apply mul_nonneg; apply sq_nonneg. }
  assert (N1 : num <= dec 3 1 * sq mad * qn (length l)).
  { apply Qcle_trans with (dec 3 1 * sq mad * qn (length good)).
    - unfold num. rewrite <- sum_const. apply sum_le. intros x Hx. apply filter_In in Hx. apply term_high; [exact P|]. apply Hx.
    - rewrite !(Qcmult_comm (dec 3 1 * sq mad)). apply Qcmult_le_compat_r; [apply qn_le; apply filter_all|]. apply mul_nonneg; [discriminate|apply sq_nonneg]. }
  clearbody num den. assert (L4 : dec 4 1 <= qn (length l)) by (change (dec 4 1) with (qn 4); apply qn_le; exact L).
  set (n := qn (length l)) in *. clearbody n.
  assert (D1 : 1 < den) by (revert D L4; clear; qcx).
  assert (Dp : 0 < den * (den - 1)) by (apply mul_pos; revert D1; clear; qcx).
  destruct (Qc_eq_dec (den * (den - 1)) 0) as [E|_]; [rewrite E in Dp; exfalso; exact (Qclt_not_eq _ _ Dp eq_refl)|].
  assert (Db : dec 3 1 * n * n <= dec 1000 1 * (den * (den - 1))).
  { assert (K : (dec 86 100 + dec 6 100 * n) * (dec 86 100 + dec 6 100 * n - 1) <= den * (den - 1)) by (apply mul_le; revert D L4; clear; qcx).
    assert (K2 : dec 1000 1 * ((dec 86 100 + dec 6 100 * n) * (dec 86 100 + dec 6 100 * n - 1)) <= dec 1000 1 * (den * (den - 1))) by (revert K; clear; qcl).
    eapply Qcle_trans; [|exact K2]. revert L4. clear. qcy. }
  assert (Dn : den * (den - 1) <> 0) by (intro E; rewrite E in Dp; exact (Qclt_not_eq _ _ Dp eq_refl)).
  assert (U : n * num / (den * (den - 1)) <= dec 1000 1 * sq mad).
  { apply (Qcmult_lt_0_le_reg_r _ _ (den * (den - 1))); [exact Dp|].
    replace (n * num / (den * (den - 1)) * (den * (den - 1))) with (num * n) by (revert Dn; generalize (den * (den - 1)); intros z Dn; field; exact Dn).
    assert (Pn : 0 <= n) by (revert L4; clear; qcx).
    apply Qcle_trans with (dec 3 1 * sq mad * n * n); [apply Qcmult_le_compat_r; assumption|].
    replace (dec 3 1 * sq mad * n * n) with (dec 3 1 * n * n * sq mad) by ring.
    replace (dec 1000 1 * sq mad * (den * (den - 1))) with (dec 1000 1 * (den * (den - 1)) * sq mad) by ring.
    apply Qcmult_le_compat_r; [exact Db|apply sq_nonneg]. }
  destruct (qlt 0 (n * num / (den * (den - 1)))) eqn:Q.
  - apply qlt_true in Q. eexists. split; [reflexivity|]. split; [apply Qclt_le_weak; exact Q|exact U].
  - exists 0. split; [reflexivity|]. split; [apply Qcle_refl|]. apply mul_nonneg; [discriminate|apply sq_nonneg].
Qed.
(** std() of four or more numbers is a number. *)
Lemma std_total zero l : (4 <= length l)%nat -> exists s, std zero l = Num s /\ 0 <= s.
Proof.
  intro L. assert (N : l <> []) by (intros ->; cbn in L; lia). unfold std.
  assert (H : exists c, (if zero then Some 0 else median l) = Some c) by (destruct zero; [eexists; reflexivity|apply median_exists; exact N]).
  destruct H as [c ->]. destruct (mad_exists c l N) as [mad Hm]. rewrite Hm.
  destruct (qlt mad epsilon) eqn:Q; [exists 0; split; [reflexivity|apply Qcle_refl]|]. apply qlt_false in Q.
  destruct (mad_facts _ _ _ N Hm) as [_ F]. destruct (F Q) as [A B].
  destruct (std_core_ok c mad l) as (s & S1 & S2 & _); try assumption; [eapply Qclt_le_trans; [apply eps_pos|exact Q]|].
  exists s. split; assumption.
Qed.
