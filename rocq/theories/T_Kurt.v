(** Property theorems (generated from P_KurtT.v by tools/gen_theorems.py). *)
From Coq Require Import List ZArith Bool QArith Lia Lqa Permutation.
From Verif Require Import M_Py M_Kurt S_Kurt P_Kurt P_KurtT.
Import ListNotations.
Open Scope Z_scope.

(** For two or more powers with a sum other than zero the value is the estimator of Nita and Gary; a sum of zero gives nan and a single
    power ZeroDivisionError. *)
Theorem C135_value : forall n x,
  (length x <> 1%nat -> ~ (total (fun v => v) x == 0)%Q -> exists k, spectral_power n x = Ok (Some k) /\ kurtosis_is n x k) /\
  (length x <> 1%nat -> (total (fun v => v) x == 0)%Q -> spectral_power n x = Ok None) /\
  (length x = 1%nat -> spectral_power n x = Raise ZeroDivisionError).
Proof. exact C135_value_proof. Qed.
Print Assumptions C135_value.

Example C135_value_example : exists k, spectral_power 1 [1%Q; 2%Q; 3%Q] = Ok (Some k) /\ (k == 1 # 3)%Q.
Proof. exact C135_value_example_proof. Qed.

(** The value is never negative, zero exactly for powers all alike, and at most M N + 1 for powers that are not negative. *)
Theorem C135_bounds : forall n x k, 0 <= n -> (2 <= length x)%nat -> spectral_power n x = Ok (Some k) ->
  (0 <= k)%Q /\ ((k == 0)%Q <-> exists p, Forall (fun v => (v == p)%Q) x) /\
  (Forall (fun v => (0 <= v)%Q) x -> (k <= inject_Z (Z.of_nat (length x) * n + 1))%Q).
Proof. exact C135_bounds_proof. Qed.
Print Assumptions C135_bounds.

Example C135_bounds_example : exists k, spectral_power 2 [0%Q; 0%Q; 5%Q] = Ok (Some k) /\ (k == 7)%Q.
Proof. exact C135_bounds_example_proof. Qed.

(** Neither the order of the powers nor a common factor matters. *)
Theorem C135_invariant : forall n x y c, Permutation x y -> ~ (c == 0)%Q -> same (spectral_power n x) (spectral_power n (map (fun v => c * v)%Q y)).
Proof. exact C135_invariant_proof. Qed.
Print Assumptions C135_invariant.

Example C135_invariant_example : Permutation [1%Q; 2%Q] [2%Q; 1%Q] /\ ~ (3 == 0)%Q.
Proof. exact C135_invariant_example_proof. Qed.

(** With axis=0 the values of a two-dimensional array are those of its columns. *)
Theorem C135_columns : forall n r c x ks, rectangle r c x -> spectral_axis0 n c x = Ok ks ->
  length ks = c /\ forall j, (j < c)%nat -> spectral_power n (map (fun l => nth j l 0%Q) x) = Ok (nth j ks None).
Proof. exact C135_columns_proof. Qed.
Print Assumptions C135_columns.

Example C135_columns_example : rectangle 2 1 [[1%Q]; [3%Q]] /\ exists k, spectral_axis0 1 1 [[1%Q]; [3%Q]] = Ok [Some k].
Proof. exact C135_columns_example_proof. Qed.

(** PARTIAL (missing: other arrays, see the refutation): with axis=1 the values of a square array are those of its rows. *)
Theorem C135_rows_partial : forall n r x ks, rectangle r r x -> spectral_axis1 n x = Ok ks ->
  length ks = r /\ forall i, (i < r)%nat -> spectral_power n (nth i x []) = Ok (nth i ks None).
Proof. exact C135_rows_partial_proof. Qed.
Print Assumptions C135_rows_partial.

Example C135_rows_partial_example : rectangle 2 2 [[1%Q; 2%Q]; [3%Q; 5%Q]] /\ exists ks, spectral_axis1 1 [[1%Q; 2%Q]; [3%Q; 5%Q]] = Ok ks.
Proof. exact C135_rows_partial_example_proof. Qed.

(** With axis=1 the number of rows is taken for the number of values summed: rows of values all alike, for which the value of any row by
    itself is zero, get another value whenever there are not as many columns as rows. *)
Theorem C135_rows_refuted : forall n r c p, 0 <= n -> (2 <= r)%nat -> (2 <= c)%nat -> r <> c -> ~ (p == 0)%Q ->
  (exists k, spectral_power n (repeat p c) = Ok (Some k) /\ (k == 0)%Q) /\
  exists k, spectral_axis1 n (repeat (repeat p c) r) = Ok (repeat (Some k) r) /\ ~ (k == 0)%Q.
Proof. exact C135_rows_refuted_proof. Qed.
Print Assumptions C135_rows_refuted.

Example C135_rows_refuted_example : exists k, spectral_axis1 1 [[1%Q; 2%Q; 3%Q]; [1%Q; 2%Q; 3%Q]] = Ok [Some k; Some k] /\ (k == - (2 # 3))%Q.
Proof. exact C135_rows_refuted_example_proof. Qed.

(** Of an array with several columns taken as a whole the value is wrong as well. *)
Theorem C135_whole_refuted : exists x k k', rectangle 2 2 x /\ spectral_all 1 x = Ok (Some k) /\ spectral_power 1 (concat x) = Ok (Some k') /\ ~ (k == k')%Q.
Proof. exact C135_whole_refuted_proof. Qed.
Print Assumptions C135_whole_refuted.

(** The value for spectra is that for their powers. *)
Theorem C135_spectra : forall x, spectral_fft x = spectral_power 1 (map (fun z => fst z * fst z + snd z * snd z)%Q x).
Proof. exact C135_spectra_proof. Qed.
Print Assumptions C135_spectra.

Example C135_spectra_example : exists k, spectral_fft [(1%Q, 0%Q); (3%Q, 4%Q)] = Ok (Some k).
Proof. exact C135_spectra_example_proof. Qed.

(** The expected variance and third moment are positive for two or more points; for one point they raise ZeroDivisionError. *)
Theorem C136_moments : forall m n, 1 <= m -> 1 <= n ->
  (2 <= m -> exists v s, var m n = Ok v /\ skew m n = Ok s /\ (0 < v)%Q /\ (0 < s)%Q) /\ (m = 1 -> var m n = Raise ZeroDivisionError /\ skew m n = Raise ZeroDivisionError).
Proof. exact C136_moments_proof. Qed.
Print Assumptions C136_moments.

Example C136_moments_example : exists v s, var 2 1 = Ok v /\ skew 2 1 = Ok s /\ (0 < v)%Q /\ (0 < s)%Q.
Proof. exact C136_moments_example_proof. Qed.

(** PARTIAL (missing: other exceptions, see the refutation): whenever limits are given the error handling of numpy is as before, and
    a limit that overflows is replaced by so many standard deviations from 1. *)
Theorem C136_restored_partial : forall sigma std m n params lo hi,
  (forall a b l, get_limits sigma std m n params lo hi = (Ok (a, b), l) -> l = Before /\
     (forall q, lo = Value q -> a = q) /\ (lo = FloatingPoint -> (a == 1 - sigma * std)%Q) /\ (forall q, hi = Value q -> b = q) /\ (hi = FloatingPoint -> (b == 1 + sigma * std)%Q)) /\
  (2 <= m -> 1 <= n -> params = Ok tt -> (forall e, lo <> Other e) -> (forall e, hi <> Other e) -> exists ab, get_limits sigma std m n params lo hi = (Ok ab, Before)).
Proof. exact C136_restored_partial_proof. Qed.
Print Assumptions C136_restored_partial.

Example C136_restored_partial_example : get_limits 3 1 100 1 (Ok tt) FloatingPoint (Value 2) = (Ok ((1 - 3 * 1)%Q, 2%Q), Before).
Proof. exact C136_restored_partial_example_proof. Qed.

(** After any exception, as for a single point, all numpy floating-point errors stay exceptions for the rest of the program. *)
Theorem C136_restored_refuted : forall sigma std n params lo hi, get_limits sigma std 1 n params lo hi = (Raise ZeroDivisionError, Raising).
Proof. exact C136_restored_refuted_proof. Qed.
Print Assumptions C136_restored_refuted.

Theorem C136_left_refuted : forall sigma std m n params lo hi e l, get_limits sigma std m n params lo hi = (Raise e, l) -> l = Raising.
Proof. exact C136_left_refuted_proof. Qed.
Print Assumptions C136_left_refuted.

Example C136_left_refuted_example : get_limits 3 1 1 1 (Ok tt) (Value 0) (Value 2) = (Raise ZeroDivisionError, Raising).
Proof. exact C136_left_refuted_example_proof. Qed.
