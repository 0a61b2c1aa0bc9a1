(** Property theorems (generated from P_BaseT.v by tools/gen_theorems.py). *)
From Coq Require Import List ZArith Bool Lia.
From Verif Require Import M_Base S_Base P_Base P_BaseT.
Import ListNotations.
Open Scope Z_scope.

(** C38: the list holds, in dictionary order, exactly the pairs of positions i < j (i <= j with
    autocorrelations); there are n(n-1)/2 or n(n+1)/2 of them.  The second
    antenna comes from the second list if there is one. *)
Theorem C38_all_pairs : forall (A : Type) (d : A) a1 a2 auto, let b := match a2 with Some l => l | None => a1 end in
  zlen a1 <= zlen b ->
  exists idx, all_pairs auto (zlen a1) idx /\
    2 * zlen idx = zlen a1 * (if auto then zlen a1 + 1 else zlen a1 - 1) /\
    get_baselines a1 a2 auto = Ok (map (fun p => (znth d (fst p) a1, znth d (snd p) b)) idx).
Proof. exact C38_all_pairs_proof. Qed.
Print Assumptions C38_all_pairs.

Example C38_all_pairs_example : get_baselines [10; 20; 30] None false = Ok [(10, 20); (10, 30); (20, 30)] /\
  get_baselines [10; 20] (Some [1; 2; 3]) true = Ok [(10, 1); (10, 2); (20, 2)].
Proof. exact C38_all_pairs_example_proof. Qed.

(** A shorter second list raises IndexError. *)
Theorem C38_second_list_short : forall (A : Type) (a1 b : list A) auto, zlen b < zlen a1 -> (auto = true \/ 2 <= zlen a1) ->
  get_baselines a1 (Some b) auto = Raise IndexError.
Proof. exact C38_second_list_short_proof. Qed.
Print Assumptions C38_second_list_short.

Example C38_second_list_short_example : zlen [7] < zlen [10; 20] /\ get_baselines [10; 20] (Some [7]) true = Raise IndexError.
Proof. exact C38_second_list_short_example_proof. Qed.

(** C38 (partial): for distinct antennas, looking up the two antennas of a baseline in either
    order gives its number, for all baselines of two different antennas; antennas not in the list give -1.
    Missing: autocorrelations, see the refutation. *)
Theorem C38_lookup_partial : forall (A : Type) (eqb : A -> A -> bool), (forall x y, eqb x y = true <-> x = y) ->
  forall a auto, NoDup a ->
  (forall k x y, 0 <= k -> baseline_to_antennas k a None None auto = Ok (x, y) -> x <> y ->
    antennas_to_baseline eqb x y a None None auto = Ok k /\ antennas_to_baseline eqb y x a None None auto = Ok k) /\
  (forall x y, ~ In x a \/ ~ In y a -> antennas_to_baseline eqb x y a None None auto = Ok (-1)).
Proof. exact C38_lookup_partial_proof. Qed.
Print Assumptions C38_lookup_partial.

Example C38_lookup_example : NoDup [10; 20; 30] /\ baseline_to_antennas 2 [10; 20; 30] None None false = Ok (20, 30) /\
  antennas_to_baseline Z.eqb 30 20 [10; 20; 30] None None false = Ok 2.
Proof. exact C38_lookup_example_proof. Qed.

(** C38 refuted: looking up an autocorrelation gives the first baseline with that antenna, for every antenna but the
    first; without autocorrelations the answer should be -1. *)
Theorem C38_autocorrelation_refuted : forall (A : Type) (eqb : A -> A -> bool), (forall x y, eqb x y = true <-> x = y) ->
  forall (d : A) a i, NoDup a -> 1 <= i < zlen a ->
  antennas_to_baseline eqb (znth d i a) (znth d i a) a None None true = Ok i /\
  baseline_to_antennas i a None None true = Ok (znth d 0 a, znth d i a) /\
  antennas_to_baseline eqb (znth d i a) (znth d i a) a None None false = Ok (i - 1).
Proof. exact C38_autocorrelation_refuted_proof. Qed.
Print Assumptions C38_autocorrelation_refuted.

Example C38_autocorrelation_example : antennas_to_baseline Z.eqb 20 20 [10; 20; 30] None None true = Ok 1 /\
  baseline_to_antennas 1 [10; 20; 30] None None true = Ok (10, 20) /\ baseline_to_antennas 3 [10; 20; 30] None None true = Ok (20, 20).
Proof. exact C38_autocorrelation_example_proof. Qed.

(** C39: splitting a merged FITS-IDI / measurement set number gives the antennas back, for every number
    of bits; the numbers order like the pairs. *)
Theorem C39_bits : forall s a b, 0 <= s -> 0 <= a < 2 ^ s -> 0 <= b < 2 ^ s -> split_bits s (merge_bits s a b) = (a, b).
Proof. exact C39_bits_proof. Qed.
Print Assumptions C39_bits.

Theorem C39_bits_order : forall s a b c d, 0 <= s -> 0 <= b < 2 ^ s -> 0 <= d < 2 ^ s ->
  (merge_bits s a b < merge_bits s c d <-> lex_lt (a, b) (c, d)).
Proof. exact C39_bits_order_proof. Qed.
Print Assumptions C39_bits_order.

(** UVFITS: all antenna numbers below 2048, both packings. *)
Theorem C39_uvfits : forall a b, 0 <= a < 2048 -> 0 <= b < 2048 -> split_uvfits (merge_uvfits a b) = (a, b).
Proof. exact C39_uvfits_proof. Qed.
Print Assumptions C39_uvfits.

(** Two different pairs never share a number. *)
Theorem C39_unambiguous :
  (forall s a b c d, 0 <= s -> 0 <= a < 2 ^ s -> 0 <= b < 2 ^ s -> 0 <= c < 2 ^ s -> 0 <= d < 2 ^ s ->
     merge_bits s a b = merge_bits s c d -> (a, b) = (c, d)) /\
  (forall a b c d, 0 <= a < 2048 -> 0 <= b < 2048 -> 0 <= c < 2048 -> 0 <= d < 2048 ->
     merge_uvfits a b = merge_uvfits c d -> (a, b) = (c, d)).
Proof. exact C39_unambiguous_proof. Qed.
Print Assumptions C39_unambiguous.

Example C39_bits_example : merge_bits 8 3 200 = 968 /\ split_bits 8 968 = (3, 200) /\ merge_uvfits 3 256 = 71936 /\ split_uvfits 71936 = (3, 256).
Proof. exact C39_bits_example_proof. Qed.
