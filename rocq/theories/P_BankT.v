From Coq Require Import List Bool QArith Lia Lqa.
From Verif Require Import M_Py M_Bank S_Bank P_Bank.
Import ListNotations.
Open Scope nat_scope.

(** C152: for at least n times p samples the result has n channels, and channel k is the Fourier transform of the weighted samples with
    those of all taps added up. *)
Lemma C152_bank_partial_proof : forall weight factor signal n p, 0 < n -> 0 < p -> n * p <= length signal ->
  exists out, fft weight factor signal n p = Ok out /\ length out = n /\ forall k, k < n -> (nth k out 0 == bank weight factor (fun t => nth t signal 0%Q) n p k)%Q.
Proof.
  intros weight factor signal n p N P L. set (m := n * p) in *. assert (E : length (firstn m signal) = m) by (rewrite firstn_length; lia).
  assert (W : weigh weight signal m = Ok (map (fun t => nth t (firstn m signal) 0 * weight t)%Q (seq 0 m))) by (unfold weigh; rewrite E, Nat.eqb_refl; reflexivity).
  destruct (fft_of weight factor _ n p signal N P W) as (o & F & Lo & No); [rewrite map_length, seq_length; reflexivity|]. exists o. split; [exact F|]. split; [exact Lo|]. intros k K. rewrite (No k K). unfold bank. apply total_ext. intros j J.
  assert (T : (total p (fun i => nth (i * n + j)%nat (map (fun t => nth t (firstn m signal) 0 * weight t)%Q (seq 0 m)) 0) == total p (fun i => nth (i * n + j)%nat signal 0 * weight (i * n + j)%nat))%Q); [|rewrite T; reflexivity].
  apply total_ext. intros i I. assert (B : i * n + j < m) by (unfold m; nia). set (f := fun t : nat => (nth t (firstn m signal) 0 * weight t)%Q). rewrite (nth_indep _ 0%Q (f 0)) by (rewrite map_length, seq_length; exact B). rewrite map_nth, seq_nth by exact B. cbn [plus]. unfold f.
  pose proof (nth_slice signal 0 m (i * n + j) B) as V. cbn [skipn plus] in V. rewrite V. reflexivity.
Qed.
(** C152: the functions with a given number of taps. *)
Lemma C152_taps_partial_proof : forall weight factor signal n, 0 < n ->
  Forall (fun '(f, p) => n * p <= length signal -> exists out, f weight factor signal n = Ok out /\ length out = n /\ forall k, k < n -> (nth k out 0 == bank weight factor (fun t => nth t signal 0%Q) n p k)%Q)
    [(fft2, 2); (fft4, 4); (fft8, 8); (fft16, 16); (fft32, 32)].
Proof. intros weight factor signal n N. repeat constructor; intro L; apply C152_bank_partial_proof; try exact N; try lia; exact L. Qed.
(** C152: samples after the first n times p do not matter. *)
Lemma C152_rest_proof : forall weight factor signal rest n p, n * p <= length signal -> fft weight factor (signal ++ rest) n p = fft weight factor signal n p.
Proof.
  intros weight factor signal rest n p L. unfold fft, weigh. rewrite firstn_app. replace (n * p - length signal) with 0 by lia. cbn [firstn]. rewrite app_nil_r. reflexivity.
Qed.
(** C152: the filter bank is linear. *)
Lemma C152_linear_partial_proof : forall weight factor x y a b n p, 0 < n -> 0 < p -> length x = length y -> n * p <= length x ->
  exists ox oy oz, fft weight factor x n p = Ok ox /\ fft weight factor y n p = Ok oy /\ fft weight factor (map (fun '(u, v) => a * u + b * v)%Q (combine x y)) n p = Ok oz /\
    forall k, k < n -> (nth k oz 0 == a * nth k ox 0 + b * nth k oy 0)%Q.
Proof.
  intros weight factor x y a b n p N P E L. set (z := map (fun '(u, v) => (a * u + b * v)%Q) (combine x y)). assert (Lz : length z = length x) by (unfold z; rewrite map_length, combine_length; lia).
  destruct (C152_bank_partial_proof weight factor x n p N P L) as (ox & Fx & _ & Nx). destruct (C152_bank_partial_proof weight factor y n p N P ltac:(lia)) as (oy & Fy & _ & Ny). destruct (C152_bank_partial_proof weight factor z n p N P ltac:(lia)) as (oz & Fz & _ & Nz).
  exists ox, oy, oz. split; [exact Fx|]. split; [exact Fy|]. split; [exact Fz|]. intros k K. rewrite (Nx k K), (Ny k K), (Nz k K). unfold bank.
  assert (Z0 : forall t, t < length x -> (nth t z 0 == a * nth t x 0 + b * nth t y 0)%Q).
  { intros t T. unfold z. set (f := fun '(u, v) => (a * u + b * v)%Q). rewrite (nth_indep _ 0%Q (f (0%Q, 0%Q))) by (rewrite map_length, combine_length; lia). rewrite map_nth, combine_nth by exact E. reflexivity. }
  assert (S0 : forall c m f, (c * total m f == total m (fun i => c * f i))%Q) by (intros c m f; induction m as [|m IH]; cbn [total]; [ring|rewrite <- IH; ring]).
  rewrite !S0, <- total_add. apply total_ext. intros j J.
  assert (T : (total p (fun i => nth (i * n + j)%nat z 0 * weight (i * n + j)%nat) == a * total p (fun i => nth (i * n + j)%nat x 0 * weight (i * n + j)%nat) + b * total p (fun i => nth (i * n + j)%nat y 0 * weight (i * n + j)%nat))%Q).
  { rewrite !S0, <- total_add. apply total_ext. intros i I. rewrite Z0 by nia. ring. }
  rewrite T. ring.
Qed.
(** C152: too few samples, but not one, are a ValueError; no taps are a NameError. *)
Lemma C152_errors_proof : forall weight factor signal n p,
  (length signal < n * p -> length signal <> 1 -> fft weight factor signal n p = Raise ValueError) /\ fft weight factor signal n 0 = Raise NameError.
Proof.
  intros weight factor signal n p. split.
  - intros L O. unfold fft, weigh. rewrite firstn_all2 by lia. destruct (Nat.eqb_spec (length signal) (n * p)); [lia|]. destruct signal as [|u [|v s]]; [reflexivity|cbn in O; lia|reflexivity].
  - unfold fft, weigh. rewrite Nat.mul_0_r. reflexivity.
Qed.
(** C152: one sample is no error: the result is that of a signal that has this value throughout. *)
Lemma C152_one_sample_refuted_proof : forall weight factor x n p, 1 < n * p -> fft weight factor [x] n p = fft weight factor (repeat x (n * p)) n p.
Proof.
  intros weight factor x n p L. unfold fft. f_equal. unfold weigh. set (m := n * p) in *. rewrite firstn_all2 by (cbn; lia). rewrite (firstn_all2 (n := m) (repeat x m)) by (rewrite repeat_length; lia). rewrite repeat_length, Nat.eqb_refl. cbn [length]. destruct (Nat.eqb_spec 1 m); [lia|].
  f_equal. apply map_ext_in. intros t T. apply in_seq in T. rewrite (nth_indep _ 0%Q x) by (rewrite repeat_length; lia). rewrite nth_repeat. reflexivity.
Qed.
(** Two channels and two taps of the samples 1, 2, 3, 4 with weights 1, and too few samples. *)
Lemma C152_example_proof : match fft (fun _ => 1%Q) ex_factor [1%Q; 2%Q; 3%Q; 4%Q; 9%Q] 2 2 with Ok [a; b] => (a == 10 /\ b == - (2))%Q | _ => False end /\
  fft2 (fun _ => 1%Q) ex_factor [1%Q; 2%Q; 3%Q] 2 = Raise ValueError /\ (exists o, fft2 (fun _ => 1%Q) ex_factor [1%Q] 2 = Ok o).
Proof. split; [vm_compute; split; reflexivity|]. split; [reflexivity|]. eexists. reflexivity. Qed.
