From Coq Require Import List ZArith QArith Qcanon Qcabs Bool Arith Lia Permutation Sorted.
From Verif Require Import M_Robust S_Robust P_Robust P_RobustA P_RobustB P_RobustC P_RobustD P_RobustE P_RobustF P_RobustG.
Import ListNotations.
Open Scope Qc_scope.

(** C82: outliers do not carry the mean away.  If more than half of the numbers lie between a and b and no value is repeated by half of them, the mean
    is at most 3 cut^2 times the width of that interval outside it, however far away the other numbers are.
    Missing: numbers half of which are equal, where this is false: C82_mean_repeated_refuted; and mean() may raise ValueError. *)
Lemma C82_mean_robust_partial_proof : forall a b cut data v, most a b data -> spread_out data -> 0 <= cut -> mean cut data = Num v ->
  a - frac 3 1 * cut * cut * (b - a) <= v <= b + frac 3 1 * cut * cut * (b - a).
Proof. exact mean_most. Qed.

(** C82: a case: seven of eight numbers between 1 and 7, the eighth is 1000. *)
Lemma C82_mean_robust_example_proof : most (frac 1 1) (frac 7 1) data8 /\ spread_out data8 /\ mean (frac 3 1) data8 = Num (frac 4 1).
Proof. split; [exact data8_most|]. split; [exact data8_spread|]. apply is_num_eq. vm_compute. reflexivity. Qed.

(** C82: where half of the numbers are equal the median deviation is zero and the code falls back on the mean deviation, which the outliers carry away:
    five numbers are 0, two are 1000000, and the mean is 285714. *)
Lemma C82_mean_repeated_refuted_proof : ~ (forall a b cut data v, most a b data -> 0 <= cut -> mean cut data = Num v ->
  a - frac 3 1 * cut * cut * (b - a) <= v <= b + frac 3 1 * cut * cut * (b - a)).
Proof.
  intro H. assert (K := H 0 0 (frac 3 1) (map qi [0; 0; 0; 0; 0; 1000000; 1000000]%Z) (frac 2000000 7)).
  assert (M : most 0 0 (map qi [0; 0; 0; 0; 0; 1000000; 1000000]%Z)) by (unfold most; vm_compute; repeat constructor).
  destruct (K M) as [_ R]; [discriminate|apply is_num_eq; vm_compute; reflexivity|]. apply R. vm_compute. reflexivity.
Qed.

(** C82: the order of the numbers does not matter. *)
Lemma C82_mean_order_proof : forall cut l m, Permutation l m -> mean cut l = mean cut m.
Proof. exact mean_perm. Qed.

(** C82: numbers moved by t have their mean moved by t, and the same exception otherwise. *)
Lemma C82_mean_moved_proof : forall cut t l, mean cut (moved t l) = match mean cut l with Num v => Num (v + t) | e => e end.
Proof. exact mean_moved. Qed.

(** C82: numbers stretched by k > 0 have their mean stretched by k, where no value is repeated by half of them before or after. *)
Lemma C82_mean_stretched_partial_proof : forall cut k l, 0 < k -> spread_out l -> spread_out (stretched k l) ->
  mean cut (stretched k l) = match mean cut l with Num v => Num (k * v) | e => e end.
Proof. exact mean_stretched. Qed.

(** C82: a case of the two theorems before. *)
Lemma C82_mean_moved_example_proof : spread_out data8 /\ spread_out (stretched (qi 5) data8) /\
  mean (frac 3 1) (stretched (qi 5) data8) = Num (frac 20 1) /\ mean (frac 3 1) (moved (qi 10) data8) = Num (frac 14 1).
Proof. split; [exact data8_spread|]. split; [exact data8_spread5|]. split; apply is_num_eq; vm_compute; reflexivity. Qed.

(** C82: very small numbers count as equal: divided by 10^25 the same numbers have another mean. *)
Lemma C82_mean_small_refuted_proof : ~ (forall cut k l, 0 < k -> spread_out l -> mean cut (stretched k l) = match mean cut l with Num v => Num (k * v) | e => e end).
Proof.
  intro H. specialize (H (frac 3 1) (frac 1 10000000000000000000000000) data7 ltac:(reflexivity)).
  assert (S : spread_out data7) by (apply gaps_spread; [gaps|cbn; lia]). specialize (H S). apply (f_equal (fun r => is_num r (3 # 10000000000000000000000000))) in H.
  vm_compute in H. discriminate.
Qed.

(** C82: three numbers or fewer have no mean. *)
Lemma C82_mean_few_proof : forall cut l, (length l <= 3)%nat -> mean cut l = ValueError.
Proof. exact mean_few. Qed.

(** C82: four or more may have none either: two groups and a cut of half a deviation. *)
Lemma C82_mean_groups_example_proof : mean (frac 1 2) (map qi [0; 1; 2; 3; 100; 101; 102; 103]%Z) = ValueError.
Proof. vm_compute. reflexivity. Qed.

(** C83: the standard deviation of four or more numbers is always returned, and its square is not negative. *)
Lemma C83_std_total_proof : forall zero l, (4 <= length l)%nat -> exists s, std zero l = Num s /\ 0 <= s.
Proof. exact std_total. Qed.

(** C83: and outliers do not carry it away: if more than half of the numbers lie between a and b, and no value is repeated by half of them, then the
    square of the deviation is positive and at most 2200 times the square of the width.
    Missing: numbers half of which are equal, where this is false: C83_std_repeated_refuted. *)
Lemma C83_std_robust_partial_proof : forall a b l, most a b l -> spread_out l -> (4 <= length l)%nat ->
  exists s, std false l = Num s /\ 0 < s /\ s <= frac 2200 1 * ((b - a) * (b - a)).
Proof. exact std_most. Qed.

(** C83: a case: the square of the deviation of 1, 2, ..., 7 and 1000. *)
Lemma C83_std_robust_example_proof : most (frac 1 1) (frac 7 1) data8 /\ spread_out data8 /\ exists s, std false data8 = Num s /\ frac 6 1 < s /\ s < frac 13 2.
Proof.
  split; [exact data8_most|]. split; [exact data8_spread|].
  assert (K : match std false data8 with Num s => qlt (frac 6 1) s && qlt s (frac 13 2) | _ => false end = true) by (vm_compute; reflexivity).
  destruct (std false data8) as [s| | | | |]; try discriminate. exists s. apply andb_true_iff in K. destruct K as [K1 K2]. split; [reflexivity|]. split; apply qlt_true; assumption.
Qed.

(** C83: five numbers are 0, two are 1000000: the deviation is above 500000. *)
Lemma C83_std_repeated_refuted_proof : ~ (forall a b l s, most a b l -> std false l = Num s -> s <= frac 2200 1 * ((b - a) * (b - a))).
Proof.
  intro H. specialize (H 0 0 (map qi [0; 0; 0; 0; 0; 1000000; 1000000]%Z) (frac 19190251520000000000 68713963)).
  assert (M : most 0 0 (map qi [0; 0; 0; 0; 0; 1000000; 1000000]%Z)) by (unfold most; vm_compute; repeat constructor).
  apply (H M); [apply is_num_eq; vm_compute; reflexivity|]. vm_compute. reflexivity.
Qed.

(** C83: three numbers may have no standard deviation. *)
Lemma C83_std_three_refuted_proof : ~ (forall l, (3 <= length l)%nat -> exists s, std false l = Num s).
Proof. intro H. destruct (H (map qi [0; 1; 1000]%Z) ltac:(cbn; lia)) as [s E]. vm_compute in E. discriminate. Qed.

(** C83: the order of the numbers does not matter. *)
Lemma C83_std_order_proof : forall zero l m, Permutation l m -> std zero l = std zero m.
Proof. exact std_perm. Qed.

(** C83: nor does moving them. *)
Lemma C83_std_moved_proof : forall t l, std false (moved t l) = std false l.
Proof. exact std_moved. Qed.

(** C83: stretching them by k > 0 stretches the deviation by k (its square by k^2), where no value is repeated by half of them before or after. *)
Lemma C83_std_stretched_partial_proof : forall k l, 0 < k -> spread_out l -> spread_out (stretched k l) ->
  std false (stretched k l) = match std false l with Num v => Num (k * k * v) | e => e end.
Proof. exact std_stretched. Qed.

(** C84: the mode lies between the smallest and the largest number. *)
Lemma C84_mode_range_proof : forall l v a b, mode l = Num v -> (forall x, In x l -> a <= x <= b) -> a <= v <= b.
Proof. exact mode_range. Qed.

(** C84: the order of the numbers does not matter. *)
Lemma C84_mode_order_proof : forall l m, Permutation l m -> mode l = mode m.
Proof. exact mode_perm. Qed.

(** C84: numbers stretched by k > 0 and moved by t have their mode stretched and moved. *)
Lemma C84_mode_moved_proof : forall k t l, 0 < k -> mode (moved t (stretched k l)) = match mode l with Num v => Num (k * v + t) | e => e end.
Proof. intros k t l K. unfold moved, stretched. rewrite map_map. exact (mode_aff k t K l). Qed.

(** C84: the mode of an odd number 2N-1 of numbers, five or more, lies in an interval with N of them that is as narrow as any with N of them.
    Missing: an even number of them, where this is false (C84_mode_even_refuted), and the choice between two intervals in the last step (C84_mode_three_refuted). *)
Lemma C84_mode_narrowest_partial_proof : forall l v N, mode l = Num v -> (length l = 2 * N - 1)%nat -> (3 <= N)%nat ->
  exists a b, a <= v <= b /\ (N <= inside a b l)%nat /\ (forall a' b', (N <= inside a' b' l)%nat -> b - a <= b' - a').
Proof. exact mode_narrowest. Qed.

(** C84: a case. *)
Lemma C84_mode_narrowest_example_proof : mode (map qi [1; 9; 5; 6; 20]%Z) = Num (frac 11 2) /\ mode (moved (qi 10) (stretched (qi 2) (map qi [1; 9; 5; 6; 20]%Z))) = Num (frac 21 1).
Proof. split; apply is_num_eq; vm_compute; reflexivity. Qed.

(** C84: the last half of an even number of numbers is never looked at: the mode of 0, 10, 20, 21 is 5. *)
Lemma C84_mode_even_refuted_proof : ~ (forall l v N, mode l = Num v -> (length l = 2 * N)%nat -> (2 <= N)%nat ->
  exists a b, a <= v <= b /\ (N <= inside a b l)%nat /\ (forall a' b', (N <= inside a' b' l)%nat -> b - a <= b' - a')).
Proof.
  intro H. destruct (H (map qi [0; 10; 20; 21]%Z) (qi 5) 2%nat) as (a & b & [A B] & I & K); [apply is_num_eq; vm_compute; reflexivity|reflexivity|lia|].
  specialize (K (qi 20) (qi 21) ltac:(vm_compute; lia)).
  assert (W : b <= qi 6).
  { assert (E : qi 21 - qi 20 = 1) by (apply Qc_is_canon; reflexivity). rewrite E in K. assert (A' : a <= qi 5) by exact A. revert K A'. clear. change (qi 6) with (dec 6 1). change (qi 5) with (dec 5 1). qcl. }
  assert (V : qi 4 <= a).
  { assert (E : qi 21 - qi 20 = 1) by (apply Qc_is_canon; reflexivity). rewrite E in K. assert (B' : qi 5 <= b) by exact B. revert K B'. clear. change (qi 4) with (dec 4 1). change (qi 5) with (dec 5 1). qcl. }
  cbn [map inside] in I.
  assert (X : forall x, x < qi 4 \/ qi 6 < x -> (if Qclt_le_dec x a then 0%nat else if Qclt_le_dec b x then 0%nat else 1%nat) = 0%nat).
  { intros x [L|L]; destruct (Qclt_le_dec x a) as [|Y1]; try reflexivity; destruct (Qclt_le_dec b x) as [|Y2]; try reflexivity; exfalso.
    - apply (Qclt_not_le _ _ L). eapply Qcle_trans; eassumption.
    - apply (Qclt_not_le _ _ L). eapply Qcle_trans; eassumption. }
  rewrite !X in I; [lia|right; reflexivity|right; reflexivity|right; reflexivity|left; reflexivity].
Qed.

(** C84: of three numbers the upper two are never chosen (both tests are the same in the code): the mode of 0, 10, 11 is 10. *)
Lemma C84_mode_three_refuted_proof : ~ (forall a b c, a <= b -> b <= c -> c - b < b - a -> mode [a; b; c] = Num ((b + c) / frac 2 1)).
Proof.
  intro H. specialize (H (qi 0) (qi 10) (qi 11) ltac:(discriminate) ltac:(discriminate) ltac:(reflexivity)). apply (f_equal (fun r => is_num r 10)) in H. vm_compute in H. discriminate.
Qed.

(** C84: four or more equal numbers have no mode: UnboundLocalError. *)
Lemma C84_mode_equal_refuted_proof : forall x n, (4 <= n)%nat -> mode (repeat x n) = UnboundLocalError.
Proof. exact mode_equal. Qed.

(** C84: nor do numbers most of which are equal. *)
Lemma C84_mode_equal_example_proof : mode (map qi [5; 5; 5; 5; 7; 8; 9]%Z) = UnboundLocalError.
Proof. vm_compute. reflexivity. Qed.

(** C85: the spectral kurtosis of two or more powers, not negative and not all zero, lies between 0 and M N + 1. *)
Lemma C85_kurtosis_range_proof : forall x N, (2 <= length x)%nat -> (forall v, In v x -> 0 <= v) -> 0 < fold_right Qcplus 0 x -> 0 <= N ->
  exists k, spectral_power x N = Some k /\ 0 <= k <= frac (Z.of_nat (length x)) 1 * N + 1.
Proof. exact kurtosis_bounds. Qed.

(** C85: it is 0 exactly when all the powers are equal. *)
Lemma C85_kurtosis_zero_proof : forall x N, (2 <= length x)%nat -> 0 < fold_right Qcplus 0 x -> 0 <= N ->
  (spectral_power x N = Some 0 <-> all_equal x).
Proof. exact kurtosis_zero. Qed.

(** C85: it does not change when all the powers are multiplied by the same number. *)
Lemma C85_kurtosis_scale_proof : forall c x N, c <> 0 -> spectral_power (stretched c x) N = spectral_power x N.
Proof. exact kurtosis_scale. Qed.

(** C85: a case of the theorems before. *)
Lemma C85_kurtosis_example_proof : option_map this (spectral_power (map qi [1; 2; 3; 4]%Z) 1) = Some (1 # 3) /\ option_map this (spectral_power (map qi [5; 0; 0; 0]%Z) 1) = Some 5%Q.
Proof. vm_compute. split; reflexivity. Qed.

(** C85: spectra given as complex numbers: the kurtosis of their powers with N = 1, so unchanged when all are turned or scaled by one complex number. *)
Lemma C85_kurtosis_fft_proof : forall c d x, c * c + d * d <> 0 ->
  spectral_fft (map (fun z => (c * fst z - d * snd z, c * snd z + d * fst z)) x) = spectral_fft x.
Proof.
  intros c d x H. unfold spectral_fft. rewrite map_map. etransitivity; [|exact (kurtosis_scale (c * c + d * d) _ _ H)]. unfold stretched. rewrite map_map. f_equal.
  apply map_ext. intro z. cbn [fst snd]. unfold sq. ring.
Qed.

(** C85: the rows of a square matrix, axis=1, have the kurtosis of each row.
    Missing: any other matrix; the code takes the number of rows for the length of a row: C85_kurtosis_rows_refuted. *)
Lemma C85_kurtosis_rows_partial_proof : forall x N, (forall r, In r x -> length r = length x) -> spectral_power_rows x N = map (fun r => spectral_power r N) x.
Proof. intros x N H. unfold spectral_power_rows, spectral_power. apply map_ext_in. intros r Hr. rewrite (H r Hr). reflexivity. Qed.

(** C85: two rows of four equal powers have kurtosis -3/2 each. *)
Lemma C85_kurtosis_rows_refuted_proof : ~ (forall x N, spectral_power_rows x N = map (fun r => spectral_power r N) x).
Proof. intro H. specialize (H (map (map qi) [[1; 1; 1; 1]; [1; 1; 1; 1]]%Z) 1). apply (f_equal (map (option_map this))) in H. vm_compute in H. discriminate. Qed.

(** C86: points on a line are fitted by that line, two of them being at least 2 10^-10 apart in x.
    Missing: points closer together (C86_line_close_refuted), and points not on a line. *)
Lemma C86_line_exact_partial_proof : forall xs p q a b, In a xs -> In b xs -> frac 2 10000000000 <= b - a ->
  linefit xs (map (fun x => p * x + q) xs) = Line p q.
Proof. exact linefit_exact. Qed.

(** C86: a case with seven points. *)
Lemma C86_line_exact_example_proof : In (qi 1) data7 /\ In (qi 2) data7 /\ frac 2 10000000000 <= qi 2 - qi 1.
Proof. split; [left; reflexivity|]. split; [right; left; reflexivity|]. discriminate. Qed.

(** C86: the line through two points 10^-11 apart in x is returned as zero. *)
Lemma C86_line_close_refuted_proof : ~ (forall xs p q a b, In a xs -> In b xs -> a <> b -> linefit xs (map (fun x => p * x + q) xs) = Line p q).
Proof.
  intro H. specialize (H [0; frac 1 100000000000] 1 1 0 (frac 1 100000000000) (or_introl eq_refl) (or_intror (or_introl eq_refl))).
  assert (N : 0 <> frac 1 100000000000) by (intro E; apply (f_equal this) in E; discriminate E). specialize (H N).
  apply (f_equal (fun l => match l with Line s _ => Qeq_bool s 0 | _ => false end)) in H. vm_compute in H. discriminate.
Qed.

(** C86: where numpy's fit of order 1 or more goes through all the points, centred or not, so does the polynomial returned. *)
Lemma C86_poly_through_partial_proof : forall fit x y order, (1 <= order)%nat -> x <> [] -> length y = length x -> (Z.of_nat (length x) < 10000)%Z ->
  (forall u v, length u = length v -> length (fit u v order) = S order) ->
  (forall s t, let u := map (fun a => a - s) x in let v := map (fun a => a - t) y in map (poly_value (rev (fit u v order))) u = v) ->
  exists c, polyfit fit x y order = Poly c /\ map (poly_value c) x = y.
Proof. exact polyfit_through. Qed.

(** C86: a case: the line through two points. *)
Lemma C86_poly_through_example_proof : exists c, polyfit two_points [qi 1; qi 3] [qi 5; qi 9] 1 = Poly c /\ map (poly_value c) [qi 1; qi 3] = [qi 5; qi 9].
Proof. apply polyfit_through; try (cbn; lia); try reflexivity; [discriminate|intros; apply two_points_len|exact two_points_fit]. Qed.

(** C86: order 0: the mean taken off before the fit is not added again; the points (1, 5), (2, 5), (3, 5) are fitted by 0. *)
Lemma C86_poly_constant_refuted_proof : exists fit, (forall u v, length (fit u v 0%nat) = 1%nat) /\
  (forall s t, let u := map (fun a => a - s) (map qi [1; 2; 3]%Z) in let v := map (fun a => a - t) (map qi [5; 5; 5]%Z) in map (poly_value (rev (fit u v 0%nat))) u = v) /\
  exists c, polyfit fit (map qi [1; 2; 3]%Z) (map qi [5; 5; 5]%Z) 0 = Poly c /\ map (fun x => this (poly_value c x)) (map qi [1; 2; 3]%Z) = [0; 0; 0]%Q.
Proof.
  exists (fun _ v _ => hd 0 v :: nil). split; [reflexivity|]. split.
  - intros s t. cbn. unfold poly_value. cbn [rev app fold_left]. apply triple_eq; ring.
  - eexists. split.
    + unfold polyfit. cbn [map qmean]. cbn [length Z.of_nat Pos.of_succ_nat Pos.succ Z.leb Z.compare Pos.compare Pos.compare_cont Nat.ltb Nat.leb].
      set (t := qsum [qi 5; qi 5; qi 5] / qn 3). set (s := qsum [qi 1; qi 2; qi 3] / qn 3). cbn [map hd polyval fold_right].
      replace (map (fun a => polyval a [qi 5 - t]) [qi 1 - s; qi 2 - s; qi 3 - s]) with [qi 5 - t; qi 5 - t; qi 5 - t] by (cbn; apply triple_eq; ring).
      rewrite perfect_self by discriminate. reflexivity.
    + vm_compute. reflexivity.
Qed.

Lemma nth_map_lt (A B : Type) (f : A -> B) l i d0 d1 : (i < length l)%nat -> nth i (map f l) d0 = f (nth i l d1).
Proof.
  intro H. rewrite nth_indep with (d' := f d1) by (rewrite map_length; exact H). apply map_nth.
Qed.

(** C86: the weights for the next iteration: they add up to one, none is negative, the points farther than six deviations from the fit have weight
    zero and no others, the closer point has the larger weight, and the points within six deviations are counted. *)
Lemma C86_weights_proof : forall data fit s2 frac_dev n w, length fit = length data -> checkfit data fit = Some (true, s2, frac_dev, n, w) ->
  let d i := nth i data 0 - nth i fit 0 in
  0 < s2 /\ length w = length data /\ qsum w = 1 /\ n = length (filter (fun i => if Qclt_le_dec (qi 36 * s2) (d i * d i) then false else true) (seq 0 (length data))) /\
  (forall i, (i < length data)%nat -> 0 <= nth i w 0 /\ (nth i w 0 = 0 <-> qi 36 * s2 <= d i * d i)) /\
  (forall i j, (i < length data)%nat -> (j < length data)%nat -> d i * d i <= d j * d j -> nth j w 0 <= nth i w 0).
Proof.
  intros data fit s2 fd n w LF H d. unfold checkfit in H. set (dv := map (fun p => fst p - snd p) (combine data fit)) in *.
  destruct (std true dv) as [s| | | | |] eqn:ES; try discriminate. destruct (qlt s (sq epsilon)) eqn:E1; [discriminate|].
  destruct (if (_ <? 3)%nat then Some 0 else _) as [fd0|]; [|discriminate]. destruct (qlt fd0 delta); [discriminate|].
  set (rr := map (fun r => 1 - r) (map (fun x => let r := sq x / (dec 36 1 * s) in if qlt 1 r then 1 else r) dv)) in *.
  destruct (Qc_eq_dec (qsum rr) 0) as [Z0|NZ]; [discriminate|]. injection H as <- _ <- <-.
  assert (LD : length dv = length data) by (unfold dv; rewrite map_length, combine_length, LF; lia).
  assert (ND : forall i, (i < length data)%nat -> nth i dv 0 = d i).
  { intros i I1. unfold dv. rewrite (nth_map_lt _ _ (fun p : Qc * Qc => fst p - snd p) _ _ 0 (0, 0)) by (rewrite combine_length, LF; lia). rewrite combine_nth by (symmetry; exact LF). reflexivity. }
  assert (SP : 0 < s). { apply qlt_false in E1. apply Qclt_le_trans with (sq epsilon); [reflexivity|exact E1]. }
  assert (C36 : dec 36 1 = qi 36) by reflexivity. rewrite C36 in *. assert (DP : 0 < qi 36 * s) by (apply mul_pos; [reflexivity|exact SP]).
  assert (TN : qi 36 * s <> 0) by (intro X; rewrite X in DP; discriminate).
  assert (QD : forall a, a / (qi 36 * s) * (qi 36 * s) = a) by (intro a; unfold Qcdiv; rewrite <- Qcmult_assoc, (Qcmult_comm (/ _)), Qcmult_inv_r by exact TN; apply Qcmult_1_r).
  set (f := fun x => 1 - (if qlt 1 (sq x / (qi 36 * s)) then 1 else sq x / (qi 36 * s))).
  assert (RR : rr = map f dv) by (unfold rr; rewrite map_map; reflexivity). clearbody rr. subst rr.
  assert (F : forall x, (qlt 1 (sq x / (qi 36 * s)) = true <-> qi 36 * s < sq x)).
  { intro x. rewrite qlt_true. split; intro L.
    - apply (Qcmult_lt_compat_r _ _ _ DP) in L. now rewrite QD, Qcmult_1_l in L.
    - apply Qcnot_le_lt. intro M. apply (Qcmult_le_compat_r _ _ (qi 36 * s)) in M; [|now apply Qclt_le_weak]. rewrite QD, Qcmult_1_l in M. exact (Qclt_not_le _ _ L M). }
  assert (IV : sq 0 = 0) by reflexivity.
  assert (FC : forall x, (sq x <= qi 36 * s /\ f x = 1 - sq x / (qi 36 * s)) \/ (qi 36 * s < sq x /\ f x = 0)).
  { intro x. unfold f. destruct (qlt 1 (sq x / (qi 36 * s))) eqn:Q; [right; split; [now apply F|ring]|left]. split; [|reflexivity]. apply Qcnot_lt_le. intro L. apply F in L. congruence. }
  assert (FD : forall a b, (a / (qi 36 * s) <= b / (qi 36 * s) <-> a <= b)).
  { intros a b. split; intro L.
    - apply (Qcmult_le_compat_r _ _ (qi 36 * s)) in L; [|now apply Qclt_le_weak]. now rewrite !QD in L.
    - apply le_div; [exact DP|]. now rewrite QD. }
  assert (DO : qi 36 * s / (qi 36 * s) = 1) by (unfold Qcdiv; apply Qcmult_inv_r; exact TN).
  assert (FN : forall x, 0 <= f x). { intro x. destruct (FC x) as [[L ->]|[_ ->]]; [|apply Qcle_refl]. apply FD in L. rewrite DO in L. apply -> Qcle_minus_iff in L. exact L. }
  assert (FZ : forall x, f x = 0 <-> qi 36 * s <= sq x).
  { intro x. destruct (FC x) as [[L E]|[L E]]; rewrite E; split; intro X; [| |now apply Qclt_le_weak|exact eq_refl].
    - apply FD. rewrite DO. replace (sq x / (qi 36 * s)) with (1 - (1 - sq x / (qi 36 * s))) by ring. rewrite X. ring_simplify (1 - 0). apply Qcle_refl.
    - rewrite (Qcle_antisym _ _ L X), DO. ring. }
  assert (FM : forall x y, sq x <= sq y -> f y <= f x).
  { intros x y L. destruct (FC y) as [[Ly Ey]|[Ly Ey]]; rewrite Ey; [|apply FN]. destruct (FC x) as [[Lx Ex]|[Lx Ex]]; rewrite Ex.
    - apply FD in L. apply Qcplus_le_compat; [apply Qcle_refl|]. now apply Qcopp_le_compat.
    - exfalso. apply (Qclt_not_le _ _ Lx). exact (Qcle_trans _ _ _ L Ly). }
  assert (SW : 0 < qsum (map f dv)). { assert (G : 0 <= qsum (map f dv)) by (apply sum_nonneg; intros; apply FN). apply Qcle_lt_or_eq in G as [G|G]; [exact G|congruence]. }
  assert (NW : forall i, (i < length data)%nat -> nth i (map (fun x => x / qsum (map f dv)) (map f dv)) 0 = f (d i) / qsum (map f dv)).
  { intros i I1. rewrite map_map. rewrite (nth_map_lt _ _ (fun x => f x / qsum (map f dv)) _ _ 0 0) by (rewrite LD; exact I1). rewrite ND by exact I1. reflexivity. }
  assert (IP : 0 <= / qsum (map f dv)). { replace (/ qsum (map f dv)) with (1 / qsum (map f dv)) by (field; exact NZ). apply le_div; [exact SW|]. rewrite Qcmult_0_l. discriminate. }
  split; [exact SP|]. split; [now rewrite !map_length|]. split.
  { rewrite (map_ext _ (fun x => / qsum (map f dv) * x)) by (intro; unfold Qcdiv; ring). rewrite (sum_scale (/ qsum (map f dv)) (fun x => x)). rewrite map_id. rewrite Qcmult_comm. apply Qcmult_inv_r. exact NZ. }
  split.
  { assert (DM : dv = map d (seq 0 (length data))).
    { apply nth_ext with (d := 0) (d' := d 0%nat); [now rewrite map_length, seq_length|]. intros i I1. rewrite LD in I1. rewrite ND by exact I1. rewrite map_nth. rewrite seq_nth by exact I1. reflexivity. }
    assert (G : forall l, (length (map d l) - length (filter (fun x => qlt 1 (sq x / (qi 36 * s))) (map d l)) = length (filter (fun i => if Qclt_le_dec (qi 36 * s) (d i * d i) then false else true) l))%nat /\
                (length (filter (fun x => qlt 1 (sq x / (qi 36 * s))) (map d l)) <= length (map d l))%nat).
    { induction l as [|i l [IH1 IH2]]; [split; reflexivity|]. cbn [map filter]. pose proof (F (d i)) as Fi. unfold sq at 2 in Fi. destruct (Qclt_le_dec (qi 36 * s) (d i * d i)) as [L|L].
      - rewrite (proj2 Fi L). cbn [length]. lia.
      - destruct (qlt 1 (sq (d i) / (qi 36 * s))) eqn:Q; [exfalso; exact (Qclt_not_le _ _ (proj1 Fi eq_refl) L)|]. cbn [length]. lia. }
    pose proof (proj1 (G (seq 0 (length data)))) as G1. rewrite <- DM, LD in G1. exact G1. }
  split.
  - intros i I1. rewrite NW by exact I1. split; [unfold Qcdiv; apply mul_nonneg; [apply FN|exact IP]|]. rewrite <- (FZ (d i)). split; intro X.
    + apply (f_equal (fun z => z * qsum (map f dv))) in X. unfold Qcdiv in X. rewrite <- Qcmult_assoc, (Qcmult_comm (/ _)), Qcmult_inv_r, Qcmult_1_r, Qcmult_0_l in X by exact NZ. exact X.
    + rewrite X. unfold Qcdiv. ring.
  - intros i j I1 J1 L. rewrite !NW by assumption. unfold Qcdiv. apply Qcmult_le_compat_r; [|exact IP]. apply FM. exact L.
Qed.

(** C86: a case: five points of which one is far off. *)
Lemma C86_weights_example_proof : match checkfit (map qi [0; 11; 19; 31; 500]%Z) (map qi [1; 10; 20; 30; 40]%Z) with Some (true, _, _, n, w) => n = 4%nat /\ length w = 5%nat | _ => False end.
Proof.
  vm_compute. split; reflexivity.
Qed.
