(** Property theorems (generated from P_VirtT.v by tools/gen_theorems.py). *)
From Coq Require Import List ZArith Bool QArith Lia Permutation.
From Verif Require Import M_Py M_Virt S_Virt P_Virt P_VirtT.
Import ListNotations.
Open Scope Z_scope.

(** C149: a data set is added to a writer when its time is new and it is as large as the others, as the last set, and the sets before
    keep their numbers; any other raises ValueError. *)
Theorem C149_added : forall w d, holds w ->
  (fits w d -> add w d = Ok (w ++ [d]) /\ get_data_set (w ++ [d]) [Z.of_nat (length w) + 1] false = (Ok [length w], w ++ [d]) /\ nth_error (w ++ [d]) (length w) = Some d /\
     forall j, (j < length w)%nat -> nth_error (w ++ [d]) j = nth_error w j) /\
  (~ fits w d -> add w d = Raise ValueError).
Proof. exact C149_added_proof. Qed.
Print Assumptions C149_added.

(** C149: so a second polarization of the same time, which is a data set of its own, cannot be added. *)
Theorem C149_second_polarization_refuted : forall w d e, holds w -> In e w -> (jd d == jd e)%Q -> add w d = Raise ValueError.
Proof. exact C149_second_polarization_refuted_proof. Qed.
Print Assumptions C149_second_polarization_refuted.

(** C150: without sorting, distinct set numbers from one on give the sets of these numbers, in the order they are given, and leave the
    writer as it is. *)
Theorem C150_sets : forall w sets, holds w -> NoDup sets -> (forall s, In s sets -> 1 <= s <= Z.of_nat (length w)) ->
  get_data_set w sets false = (Ok (map (fun s => Z.to_nat (s - 1)) sets), w).
Proof. exact C150_sets_proof. Qed.
Print Assumptions C150_sets.

(** C150: with sorting, the same sets in order of time, each with its baselines in order. *)
Theorem C150_sorted_partial : forall w sets, holds w -> NoDup sets -> (forall s, In s sets -> 1 <= s <= Z.of_nat (length w)) ->
  exists p w', get_data_set w sets true = (Ok p, w') /\ Permutation (map (fun s => Z.to_nat (s - 1)) sets) p /\ in_time w p /\ length w' = length w /\
    forall j d, nth_error w j = Some d -> exists d', nth_error w' j = Some d' /\ jd d' = jd d /\ chans d' = chans d /\ Permutation (bls d) (bls d') /\ (In j p -> ascending (bls d')) /\ (~ In j p -> d' = d).
Proof. exact C150_sorted_partial_proof. Qed.
Print Assumptions C150_sorted_partial.

(** C150: the sets sorted are those of the writer: asking for a set whose baselines are not in order changes the writer. *)
Theorem C150_writer_changed_refuted : forall w s d, holds w -> 1 <= s <= Z.of_nat (length w) -> nth_error w (Z.to_nat (s - 1)) = Some d -> ~ ascending (bls d) ->
  snd (get_data_set w [s] true) <> w.
Proof. exact C150_writer_changed_refuted_proof. Qed.
Print Assumptions C150_writer_changed_refuted.

(** C150: set 0 is not refused: it is the last set. *)
Theorem C150_set_zero_refuted : forall w d, get_data_set (w ++ [d]) [0] false = (Ok [length w], w ++ [d]).
Proof. exact C150_set_zero_refuted_proof. Qed.
Print Assumptions C150_set_zero_refuted.

(** C150: a set number above the number of sets is an IndexError, and so is one as far below, whatever else is asked for after it. *)
Theorem C150_range : forall w s r sort, Z.of_nat (length w) < s \/ s <= - Z.of_nat (length w) -> get_data_set w (s :: r) sort = (Raise IndexError, w).
Proof. exact C150_range_proof. Qed.
Print Assumptions C150_range.

(** C150: the same set twice is refused with a ValueError, as if it were other data of the same time. *)
Theorem C150_twice_refuted : forall w before s after sort, holds w -> NoDup before -> (forall x, In x before -> 1 <= x <= Z.of_nat (length w)) -> In s before ->
  get_data_set w (before ++ s :: after) sort = (Raise ValueError, w).
Proof. exact C150_twice_refuted_proof. Qed.
Print Assumptions C150_twice_refuted.

(** Two sets, the later one first. *)
Example C149_example : holds [ex_b; ex_a] /\ fits [ex_b] ex_a /\ add [ex_b; ex_a] ex_a = Raise ValueError.
Proof. exact C149_example_proof. Qed.

(** Both, sorted: by time, with their baselines in order in the writer too; one twice is a ValueError. *)
Example C150_example : get_data_set [ex_b; ex_a] [1; 2] true = (Ok [1%nat; 0%nat], [mkD 2%Q [2; 3] 4%nat; mkD 1%Q [2; 3] 4%nat]) /\
  get_data_set [ex_b; ex_a] [2] true = (Ok [1%nat], [ex_b; mkD 1%Q [2; 3] 4%nat]) /\ get_data_set [ex_b; ex_a] [1; 1] false = (Raise ValueError, [ex_b; ex_a]) /\ ~ ascending (bls ex_a).
Proof. exact C150_example_proof. Qed.
