(** Property theorems (generated from P_RobustT.v by tools/gen_theorems.py). *)
From Coq Require Import List ZArith QArith Qcanon Qcabs Bool Arith Lia Permutation Sorted.
From Verif Require Import M_Robust S_Robust P_Robust P_RobustA P_RobustB P_RobustC P_RobustD P_RobustE P_RobustF P_RobustG P_RobustT.
Import ListNotations.
Open Scope Qc_scope.

(** C82: outliers do not carry the mean away.  If more than half of the numbers lie between a and b and no value is repeated by half of them, the mean
    is at most 3 cut^2 times the width of that interval outside it, however far away the other numbers are.
    Missing: numbers half of which are equal, where this is false: C82_mean_repeated_refuted; and mean() may raise ValueError. *)
Theorem C82_mean_robust_partial : forall a b cut data v, most a b data -> spread_out data -> 0 <= cut -> mean cut data = Num v ->
  a - frac 3 1 * cut * cut * (b - a) <= v <= b + frac 3 1 * cut * cut * (b - a).
Proof. exact C82_mean_robust_partial_proof. Qed.
Print Assumptions C82_mean_robust_partial.

(** C82: a case: seven of eight numbers between 1 and 7, the eighth is 1000. *)
Example C82_mean_robust_example : most (frac 1 1) (frac 7 1) data8 /\ spread_out data8 /\ mean (frac 3 1) data8 = Num (frac 4 1).
Proof. exact C82_mean_robust_example_proof. Qed.

(** C82: where half of the numbers are equal the median deviation is zero and the code falls back on the mean deviation, which the outliers carry away:
    five numbers are 0, two are 1000000, and the mean is 285714. *)
Theorem C82_mean_repeated_refuted : ~ (forall a b cut data v, most a b data -> 0 <= cut -> mean cut data = Num v ->
  a - frac 3 1 * cut * cut * (b - a) <= v <= b + frac 3 1 * cut * cut * (b - a)).
Proof. exact C82_mean_repeated_refuted_proof. Qed.
Print Assumptions C82_mean_repeated_refuted.

(** C82: the order of the numbers does not matter. *)
Theorem C82_mean_order : forall cut l m, Permutation l m -> mean cut l = mean cut m.
Proof. exact C82_mean_order_proof. Qed.
Print Assumptions C82_mean_order.

(** C82: numbers moved by t have their mean moved by t, and the same exception otherwise. *)
Theorem C82_mean_moved : forall cut t l, mean cut (moved t l) = match mean cut l with Num v => Num (v + t) | e => e end.
Proof. exact C82_mean_moved_proof. Qed.
Print Assumptions C82_mean_moved.

(** C82: numbers stretched by k > 0 have their mean stretched by k, where no value is repeated by half of them before or after. *)
Theorem C82_mean_stretched_partial : forall cut k l, 0 < k -> spread_out l -> spread_out (stretched k l) ->
  mean cut (stretched k l) = match mean cut l with Num v => Num (k * v) | e => e end.
Proof. exact C82_mean_stretched_partial_proof. Qed.
Print Assumptions C82_mean_stretched_partial.

(** C82: a case of the two theorems before. *)
Example C82_mean_moved_example : spread_out data8 /\ spread_out (stretched (qi 5) data8) /\
  mean (frac 3 1) (stretched (qi 5) data8) = Num (frac 20 1) /\ mean (frac 3 1) (moved (qi 10) data8) = Num (frac 14 1).
Proof. exact C82_mean_moved_example_proof. Qed.

(** C82: very small numbers count as equal: divided by 10^25 the same numbers have another mean. *)
Theorem C82_mean_small_refuted : ~ (forall cut k l, 0 < k -> spread_out l -> mean cut (stretched k l) = match mean cut l with Num v => Num (k * v) | e => e end).
Proof. exact C82_mean_small_refuted_proof. Qed.
Print Assumptions C82_mean_small_refuted.

(** C82: three numbers or fewer have no mean. *)
Theorem C82_mean_few : forall cut l, (length l <= 3)%nat -> mean cut l = ValueError.
Proof. exact C82_mean_few_proof. Qed.
Print Assumptions C82_mean_few.

(** C82: four or more may have none either: two groups and a cut of half a deviation. *)
Example C82_mean_groups_example : mean (frac 1 2) (map qi [0; 1; 2; 3; 100; 101; 102; 103]%Z) = ValueError.
Proof. exact C82_mean_groups_example_proof. Qed.

(** C83: the standard deviation of four or more numbers is always returned, and its square is not negative. *)
Theorem C83_std_total : forall zero l, (4 <= length l)%nat -> exists s, std zero l = Num s /\ 0 <= s.
Proof. exact C83_std_total_proof. Qed.
Print Assumptions C83_std_total.

(** C83: and outliers do not carry it away: if more than half of the numbers lie between a and b, and no value is repeated by half of them, then the
    square of the deviation is positive and at most 2200 times the square of the width.
    Missing: numbers half of which are equal, where this is false: C83_std_repeated_refuted. *)
Theorem C83_std_robust_partial : forall a b l, most a b l -> spread_out l -> (4 <= length l)%nat ->
  exists s, std false l = Num s /\ 0 < s /\ s <= frac 2200 1 * ((b - a) * (b - a)).
Proof. exact C83_std_robust_partial_proof. Qed.
Print Assumptions C83_std_robust_partial.

(** C83: a case: the square of the deviation of 1, 2, ..., 7 and 1000. *)
Example C83_std_robust_example : most (frac 1 1) (frac 7 1) data8 /\ spread_out data8 /\ exists s, std false data8 = Num s /\ frac 6 1 < s /\ s < frac 13 2.
Proof. exact C83_std_robust_example_proof. Qed.

(** C83: five numbers are 0, two are 1000000: the deviation is above 500000. *)
Theorem C83_std_repeated_refuted : ~ (forall a b l s, most a b l -> std false l = Num s -> s <= frac 2200 1 * ((b - a) * (b - a))).
Proof. exact C83_std_repeated_refuted_proof. Qed.
Print Assumptions C83_std_repeated_refuted.

(** C83: three numbers may have no standard deviation. *)
Theorem C83_std_three_refuted : ~ (forall l, (3 <= length l)%nat -> exists s, std false l = Num s).
Proof. exact C83_std_three_refuted_proof. Qed.
Print Assumptions C83_std_three_refuted.

(** C83: the order of the numbers does not matter. *)
Theorem C83_std_order : forall zero l m, Permutation l m -> std zero l = std zero m.
Proof. exact C83_std_order_proof. Qed.
Print Assumptions C83_std_order.

(** C83: nor does moving them. *)
Theorem C83_std_moved : forall t l, std false (moved t l) = std false l.
Proof. exact C83_std_moved_proof. Qed.
Print Assumptions C83_std_moved.

(** C83: stretching them by k > 0 stretches the deviation by k (its square by k^2), where no value is repeated by half of them before or after. *)
Theorem C83_std_stretched_partial : forall k l, 0 < k -> spread_out l -> spread_out (stretched k l) ->
  std false (stretched k l) = match std false l with Num v => Num (k * k * v) | e => e end.
Proof. exact C83_std_stretched_partial_proof. Qed.
Print Assumptions C83_std_stretched_partial.

(** C84: the mode lies between the smallest and the largest number. *)
Theorem C84_mode_range : forall l v a b, mode l = Num v -> (forall x, In x l -> a <= x <= b) -> a <= v <= b.
Proof. exact C84_mode_range_proof. Qed.
Print Assumptions C84_mode_range.

(** C84: the order of the numbers does not matter. *)
Theorem C84_mode_order : forall l m, Permutation l m -> mode l = mode m.
Proof. exact C84_mode_order_proof. Qed.
Print Assumptions C84_mode_order.

(** C84: numbers stretched by k > 0 and moved by t have their mode stretched and moved. *)
Theorem C84_mode_moved : forall k t l, 0 < k -> mode (moved t (stretched k l)) = match mode l with Num v => Num (k * v + t) | e => e end.
Proof. exact C84_mode_moved_proof. Qed.
Print Assumptions C84_mode_moved.

(** C84: the mode of an odd number 2N-1 of numbers, five or more, lies in an interval with N of them that is as narrow as any with N of them.
    Missing: an even number of them, where this is false (C84_mode_even_refuted), and the choice between two intervals in the last step (C84_mode_three_refuted). *)
Theorem C84_mode_narrowest_partial : forall l v N, mode l = Num v -> (length l = 2 * N - 1)%nat -> (3 <= N)%nat ->
  exists a b, a <= v <= b /\ (N <= inside a b l)%nat /\ (forall a' b', (N <= inside a' b' l)%nat -> b - a <= b' - a').
Proof. exact C84_mode_narrowest_partial_proof. Qed.
Print Assumptions C84_mode_narrowest_partial.

(** C84: a case. *)
Example C84_mode_narrowest_example : mode (map qi [1; 9; 5; 6; 20]%Z) = Num (frac 11 2) /\ mode (moved (qi 10) (stretched (qi 2) (map qi [1; 9; 5; 6; 20]%Z))) = Num (frac 21 1).
Proof. exact C84_mode_narrowest_example_proof. Qed.

(** C84: the last half of an even number of numbers is never looked at: the mode of 0, 10, 20, 21 is 5. *)
Theorem C84_mode_even_refuted : ~ (forall l v N, mode l = Num v -> (length l = 2 * N)%nat -> (2 <= N)%nat ->
  exists a b, a <= v <= b /\ (N <= inside a b l)%nat /\ (forall a' b', (N <= inside a' b' l)%nat -> b - a <= b' - a')).
Proof. exact C84_mode_even_refuted_proof. Qed.
Print Assumptions C84_mode_even_refuted.

(** C84: of three numbers the upper two are never chosen (both tests are the same in the code): the mode of 0, 10, 11 is 10. *)
Theorem C84_mode_three_refuted : ~ (forall a b c, a <= b -> b <= c -> c - b < b - a -> mode [a; b; c] = Num ((b + c) / frac 2 1)).
Proof. exact C84_mode_three_refuted_proof. Qed.
Print Assumptions C84_mode_three_refuted.

(** C84: four or more equal numbers have no mode: UnboundLocalError. *)
Theorem C84_mode_equal_refuted : forall x n, (4 <= n)%nat -> mode (repeat x n) = UnboundLocalError.
Proof. exact C84_mode_equal_refuted_proof. Qed.
Print Assumptions C84_mode_equal_refuted.

(** C84: nor do numbers most of which are equal. *)
Example C84_mode_equal_example : mode (map qi [5; 5; 5; 5; 7; 8; 9]%Z) = UnboundLocalError.
Proof. exact C84_mode_equal_example_proof. Qed.

(** C85: the spectral kurtosis of two or more powers, not negative and not all zero, lies between 0 and M N + 1. *)
Theorem C85_kurtosis_range : forall x N, (2 <= length x)%nat -> (forall v, In v x -> 0 <= v) -> 0 < fold_right Qcplus 0 x -> 0 <= N ->
  exists k, spectral_power x N = Some k /\ 0 <= k <= frac (Z.of_nat (length x)) 1 * N + 1.
Proof. exact C85_kurtosis_range_proof. Qed.
Print Assumptions C85_kurtosis_range.

(** C85: it is 0 exactly when all the powers are equal. *)
Theorem C85_kurtosis_zero : forall x N, (2 <= length x)%nat -> 0 < fold_right Qcplus 0 x -> 0 <= N ->
  (spectral_power x N = Some 0 <-> all_equal x).
Proof. exact C85_kurtosis_zero_proof. Qed.
Print Assumptions C85_kurtosis_zero.

(** C85: it does not change when all the powers are multiplied by the same number. *)
Theorem C85_kurtosis_scale : forall c x N, c <> 0 -> spectral_power (stretched c x) N = spectral_power x N.
Proof. exact C85_kurtosis_scale_proof. Qed.
Print Assumptions C85_kurtosis_scale.

(** C85: a case of the theorems before. *)
Example C85_kurtosis_example : option_map this (spectral_power (map qi [1; 2; 3; 4]%Z) 1) = Some (1 # 3) /\ option_map this (spectral_power (map qi [5; 0; 0; 0]%Z) 1) = Some 5%Q.
Proof. exact C85_kurtosis_example_proof. Qed.

(** C85: spectra given as complex numbers: the kurtosis of their powers with N = 1, so unchanged when all are turned or scaled by one complex number. *)
Theorem C85_kurtosis_fft : forall c d x, c * c + d * d <> 0 ->
  spectral_fft (map (fun z => (c * fst z - d * snd z, c * snd z + d * fst z)) x) = spectral_fft x.
Proof. exact C85_kurtosis_fft_proof. Qed.
Print Assumptions C85_kurtosis_fft.

(** C85: the rows of a square matrix, axis=1, have the kurtosis of each row.
    Missing: any other matrix; the code takes the number of rows for the length of a row: C85_kurtosis_rows_refuted. *)
Theorem C85_kurtosis_rows_partial : forall x N, (forall r, In r x -> length r = length x) -> spectral_power_rows x N = map (fun r => spectral_power r N) x.
Proof. exact C85_kurtosis_rows_partial_proof. Qed.
Print Assumptions C85_kurtosis_rows_partial.

(** C85: two rows of four equal powers have kurtosis -3/2 each. *)
Theorem C85_kurtosis_rows_refuted : ~ (forall x N, spectral_power_rows x N = map (fun r => spectral_power r N) x).
Proof. exact C85_kurtosis_rows_refuted_proof. Qed.
Print Assumptions C85_kurtosis_rows_refuted.

(** C86: points on a line are fitted by that line, two of them being at least 2 10^-10 apart in x.
    Missing: points closer together (C86_line_close_refuted), and points not on a line. *)
Theorem C86_line_exact_partial : forall xs p q a b, In a xs -> In b xs -> frac 2 10000000000 <= b - a ->
  linefit xs (map (fun x => p * x + q) xs) = Line p q.
Proof. exact C86_line_exact_partial_proof. Qed.
Print Assumptions C86_line_exact_partial.

(** C86: a case with seven points. *)
Example C86_line_exact_example : In (qi 1) data7 /\ In (qi 2) data7 /\ frac 2 10000000000 <= qi 2 - qi 1.
Proof. exact C86_line_exact_example_proof. Qed.

(** C86: the line through two points 10^-11 apart in x is returned as zero. *)
Theorem C86_line_close_refuted : ~ (forall xs p q a b, In a xs -> In b xs -> a <> b -> linefit xs (map (fun x => p * x + q) xs) = Line p q).
Proof. exact C86_line_close_refuted_proof. Qed.
Print Assumptions C86_line_close_refuted.

(** C86: where numpy's fit of order 1 or more goes through all the points, centred or not, so does the polynomial returned. *)
Theorem C86_poly_through_partial : forall fit x y order, (1 <= order)%nat -> x <> [] -> length y = length x -> (Z.of_nat (length x) < 10000)%Z ->
  (forall u v, length u = length v -> length (fit u v order) = S order) ->
  (forall s t, let u := map (fun a => a - s) x in let v := map (fun a => a - t) y in map (poly_value (rev (fit u v order))) u = v) ->
  exists c, polyfit fit x y order = Poly c /\ map (poly_value c) x = y.
Proof. exact C86_poly_through_partial_proof. Qed.
Print Assumptions C86_poly_through_partial.

(** C86: a case: the line through two points. *)
Example C86_poly_through_example : exists c, polyfit two_points [qi 1; qi 3] [qi 5; qi 9] 1 = Poly c /\ map (poly_value c) [qi 1; qi 3] = [qi 5; qi 9].
Proof. exact C86_poly_through_example_proof. Qed.

(** C86: order 0: the mean taken off before the fit is not added again; the points (1, 5), (2, 5), (3, 5) are fitted by 0. *)
Theorem C86_poly_constant_refuted : exists fit, (forall u v, length (fit u v 0%nat) = 1%nat) /\
  (forall s t, let u := map (fun a => a - s) (map qi [1; 2; 3]%Z) in let v := map (fun a => a - t) (map qi [5; 5; 5]%Z) in map (poly_value (rev (fit u v 0%nat))) u = v) /\
  exists c, polyfit fit (map qi [1; 2; 3]%Z) (map qi [5; 5; 5]%Z) 0 = Poly c /\ map (fun x => this (poly_value c x)) (map qi [1; 2; 3]%Z) = [0; 0; 0]%Q.
Proof. exact C86_poly_constant_refuted_proof. Qed.
Print Assumptions C86_poly_constant_refuted.

(** C86: the weights for the next iteration: they add up to one, none is negative, the points farther than six deviations from the fit have weight
    zero and no others, the closer point has the larger weight, and the points within six deviations are counted. *)
Theorem C86_weights : forall data fit s2 frac_dev n w, length fit = length data -> checkfit data fit = Some (true, s2, frac_dev, n, w) ->
  let d i := nth i data 0 - nth i fit 0 in
  0 < s2 /\ length w = length data /\ qsum w = 1 /\ n = length (filter (fun i => if Qclt_le_dec (qi 36 * s2) (d i * d i) then false else true) (seq 0 (length data))) /\
  (forall i, (i < length data)%nat -> 0 <= nth i w 0 /\ (nth i w 0 = 0 <-> qi 36 * s2 <= d i * d i)) /\
  (forall i j, (i < length data)%nat -> (j < length data)%nat -> d i * d i <= d j * d j -> nth j w 0 <= nth i w 0).
Proof. exact C86_weights_proof. Qed.
Print Assumptions C86_weights.

(** C86: a case: five points of which one is far off. *)
Example C86_weights_example : match checkfit (map qi [0; 11; 19; 31; 500]%Z) (map qi [1; 10; 20; 30; 40]%Z) with Some (true, _, _, n, w) => n = 4%nat /\ length w = 5%nat | _ => False end.
Proof. exact C86_weights_example_proof. Qed.
