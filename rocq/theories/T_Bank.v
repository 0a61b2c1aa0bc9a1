(** Property theorems (generated from P_BankT.v by tools/gen_theorems.py). *)
From Coq Require Import List Bool QArith Lia Lqa.
From Verif Require Import M_Py M_Bank S_Bank P_Bank P_BankT.
Import ListNotations.
Open Scope nat_scope.

(** C152: for at least n times p samples the result has n channels, and channel k is the Fourier transform of the weighted samples with
    those of all taps added up. *)
Theorem C152_bank_partial : forall weight factor signal n p, 0 < n -> 0 < p -> n * p <= length signal ->
  exists out, fft weight factor signal n p = Ok out /\ length out = n /\ forall k, k < n -> (nth k out 0 == bank weight factor (fun t => nth t signal 0%Q) n p k)%Q.
Proof. exact C152_bank_partial_proof. Qed.
Print Assumptions C152_bank_partial.

(** C152: the functions with a given number of taps. *)
Theorem C152_taps_partial : forall weight factor signal n, 0 < n ->
  Forall (fun '(f, p) => n * p <= length signal -> exists out, f weight factor signal n = Ok out /\ length out = n /\ forall k, k < n -> (nth k out 0 == bank weight factor (fun t => nth t signal 0%Q) n p k)%Q)
    [(fft2, 2); (fft4, 4); (fft8, 8); (fft16, 16); (fft32, 32)].
Proof. exact C152_taps_partial_proof. Qed.
Print Assumptions C152_taps_partial.

(** C152: samples after the first n times p do not matter. *)
Theorem C152_rest : forall weight factor signal rest n p, n * p <= length signal -> fft weight factor (signal ++ rest) n p = fft weight factor signal n p.
Proof. exact C152_rest_proof. Qed.
Print Assumptions C152_rest.

(** C152: the filter bank is linear. *)
Theorem C152_linear_partial : forall weight factor x y a b n p, 0 < n -> 0 < p -> length x = length y -> n * p <= length x ->
  exists ox oy oz, fft weight factor x n p = Ok ox /\ fft weight factor y n p = Ok oy /\ fft weight factor (map (fun '(u, v) => a * u + b * v)%Q (combine x y)) n p = Ok oz /\
    forall k, k < n -> (nth k oz 0 == a * nth k ox 0 + b * nth k oy 0)%Q.
Proof. exact C152_linear_partial_proof. Qed.
Print Assumptions C152_linear_partial.

(** C152: too few samples, but not one, are a ValueError; no taps are a NameError. *)
Theorem C152_errors : forall weight factor signal n p,
  (length signal < n * p -> length signal <> 1 -> fft weight factor signal n p = Raise ValueError) /\ fft weight factor signal n 0 = Raise NameError.
Proof. exact C152_errors_proof. Qed.
Print Assumptions C152_errors.

(** C152: one sample is no error: the result is that of a signal that has this value throughout. *)
Theorem C152_one_sample_refuted : forall weight factor x n p, 1 < n * p -> fft weight factor [x] n p = fft weight factor (repeat x (n * p)) n p.
Proof. exact C152_one_sample_refuted_proof. Qed.
Print Assumptions C152_one_sample_refuted.

(** Two channels and two taps of the samples 1, 2, 3, 4 with weights 1, and too few samples. *)
Example C152_example : match fft (fun _ => 1%Q) ex_factor [1%Q; 2%Q; 3%Q; 4%Q; 9%Q] 2 2 with Ok [a; b] => (a == 10 /\ b == - (2))%Q | _ => False end /\
  fft2 (fun _ => 1%Q) ex_factor [1%Q; 2%Q; 3%Q] 2 = Raise ValueError /\ (exists o, fft2 (fun _ => 1%Q) ex_factor [1%Q] 2 = Ok o).
Proof. exact C152_example_proof. Qed.
