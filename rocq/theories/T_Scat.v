(** Property theorems (generated from P_ScatT.v by tools/gen_theorems.py). *)
From Coq Require Import List ZArith Bool QArith Qround Lia Lqa.
From Verif Require Import M_Py M_Num P_Num M_Scat S_Scat P_Scat P_ScatT.
Import ListNotations.
Open Scope Q_scope.

(** For any profile, whatever the broadening function and figure of merit: the profile is what is left and the components each broadened,
    its area that of the two, the components are not negative, and either all iterations were used or nothing above 1.5 times the
    off-pulse deviation is left; the scattering time is one of the range asked for. *)
Theorem C137_deconvolved : forall screen sigma gain t merit max_iter raw lo hi step r, length raw = length t -> 0 <= sigma -> 0 <= gain -> 0 < step ->
  (forall tau, lo <= tau < hi -> broadening screen t tau) ->
  unscatter screen sigma gain t merit max_iter raw lo hi step = Ok r ->
  lo <= r_tau r < hi /\
  (forall j, nth j (r_left r) 0 + sum_to (length t) (fun p => nth p (r_cc r) 0 * nth j (broadened screen t (r_tau r) p) 0) == nth j raw 0) /\
  add_up (r_left r) + add_up (r_cc r) == add_up raw /\ length (r_left r) = length t /\ length (r_cc r) = length t /\ Forall (fun x => 0 <= x) (r_cc r) /\
  (r_iter r <= max_iter)%nat /\ ((r_iter r < max_iter)%nat -> Forall (fun x => x < (3 # 2) * sigma) (r_left r)) /\ r_merit r = merit raw (r_left r) (r_cc r).
Proof. exact C137_deconvolved_proof. Qed.
Print Assumptions C137_deconvolved.

Example C137_deconvolved_example : (forall tau, broadening flat [0; 1; 2] tau) /\ exists r, unscatter flat 1 (1 # 2) [0; 1; 2] (fun _ _ _ => Some 0) 3 [0; 6; 0] 1 3 1 = Ok r /\ r_iter r = 3%nat /\ r_cc r <> [0; 0; 0].
Proof. exact C137_deconvolved_example_proof. Qed.

(** The scattering time reported is the first with the least figure of merit of those tried. *)
Theorem C138_best : forall screen sigma gain t merit max_iter raw lo hi step r, unscatter screen sigma gain t merit max_iter raw lo hi step = Ok r ->
  exists l pre post m, taus lo hi step = Ok l /\ Forall2 (fun tau x => try_tau screen sigma gain t merit max_iter raw tau = Ok x) l (pre ++ r :: post) /\
    r_merit r = Some m /\ Forall (fun x => forall m', r_merit x = Some m' -> m < m') pre /\ Forall (fun x => forall m', r_merit x = Some m' -> m <= m') post.
Proof. exact C138_best_proof. Qed.
Print Assumptions C138_best.

Example C138_best_example : exists r, unscatter flat 1 (1 # 2) [0; 1; 2] (fun _ _ _ => Some 0) 3 [0; 6; 0] 1 3 1 = Ok r /\ r_tau r == 1.
Proof. exact C138_best_example_proof. Qed.

(** The times tried: from the least one on in equal steps, up to but not including the greatest; for a range that is not empty there is
    at least one. *)
Theorem C138_range : forall lo hi step l, 0 < step -> taus lo hi step = Ok l ->
  (forall k, (k < length l)%nat -> nth k l 0 == lo + inject_Z (Z.of_nat k) * step) /\ Forall (fun tau => lo <= tau < hi) l /\ hi <= lo + inject_Z (Z.of_nat (length l)) * step /\ (l = [] <-> hi <= lo).
Proof. exact C138_range_proof. Qed.
Print Assumptions C138_range.

Example C138_range_example : exists l, taus 1 3 (3 # 4) = Ok l /\ length l = 3%nat.
Proof. exact C138_range_example_proof. Qed.

(** The error for a search without a good solution is never raised: an empty range gives UnboundLocalError instead, and figures of merit
    none of which is a number KeyError. *)
Theorem C138_no_solution_refuted : forall screen sigma gain t merit max_iter raw lo hi step,
  unscatter screen sigma gain t merit max_iter raw lo hi step <> Raise RuntimeError /\
  (0 < step -> hi <= lo -> unscatter screen sigma gain t merit max_iter raw lo hi step = Raise NameError) /\
  (0 < step -> lo < hi -> raw <> [] -> (forall a b c, merit a b c = None) -> length raw = length t -> (forall tau, broadening screen t tau) -> unscatter screen sigma gain t merit max_iter raw lo hi step = Raise KeyError).
Proof. exact C138_no_solution_refuted_proof. Qed.
Print Assumptions C138_no_solution_refuted.

Example C138_no_solution_refuted_example : unscatter flat 1 (1 # 2) [0; 1; 2] (fun _ _ _ => Some 0) 3 [0; 6; 0] 3 3 1 = Raise NameError /\ unscatter flat 1 (1 # 2) [0; 1; 2] (fun _ _ _ => None) 3 [0; 6; 0] 1 3 1 = Raise KeyError.
Proof. exact C138_no_solution_refuted_example_proof. Qed.
