(** Final forms of the baseline numbering properties (C38, C39). *)
From Coq Require Import List ZArith Bool Lia.
From Verif Require Import M_Base S_Base P_Base.
Import ListNotations.
Open Scope Z_scope.

(** C38: the list holds, in dictionary order, exactly the pairs of positions i < j (i <= j with
    autocorrelations); there are n(n-1)/2 or n(n+1)/2 of them.  The second
    antenna comes from the second list if there is one. *)
Lemma C38_all_pairs_proof : forall (A : Type) (d : A) a1 a2 auto, let b := match a2 with Some l => l | None => a1 end in
  zlen a1 <= zlen b ->
  exists idx, all_pairs auto (zlen a1) idx /\
    2 * zlen idx = zlen a1 * (if auto then zlen a1 + 1 else zlen a1 - 1) /\
    get_baselines a1 a2 auto = Ok (map (fun p => (znth d (fst p) a1, znth d (snd p) b)) idx).
Proof.
  intros A d a1 a2 auto b H. exists (pairs (if auto then 0 else 1) (zlen a1)).
  split; [apply pairs_all|]. split; [|apply get_baselines_ok; auto].
  pose proof (pairs_len (if auto then 0 else 1) (zlen a1) 0 ltac:(destruct auto; lia) ltac:(pose proof (zlen_nonneg a1); lia)) as L.
  change (pairs (if auto then 0 else 1) (zlen a1)) with (pairs_from (if auto then 0 else 1) (zlen a1) 0). rewrite L. destruct auto; lia.
Qed.
Lemma C38_all_pairs_example_proof : get_baselines [10; 20; 30] None false = Ok [(10, 20); (10, 30); (20, 30)] /\
  get_baselines [10; 20] (Some [1; 2; 3]) true = Ok [(10, 1); (10, 2); (20, 2)].
Proof. split; reflexivity. Qed.
(** A shorter second list raises IndexError. *)
Lemma C38_second_list_short_proof : forall (A : Type) (a1 b : list A) auto, zlen b < zlen a1 -> (auto = true \/ 2 <= zlen a1) ->
  get_baselines a1 (Some b) auto = Raise IndexError.
Proof. intros. apply get_baselines_short; auto. Qed.
Lemma C38_second_list_short_example_proof : zlen [7] < zlen [10; 20] /\ get_baselines [10; 20] (Some [7]) true = Raise IndexError.
Proof. split; [reflexivity|reflexivity]. Qed.

(** C38 (partial): for distinct antennas, looking up the two antennas of a baseline in either
    order gives its number, for all baselines of two different antennas; antennas not in the list give -1.
    Missing: autocorrelations, see the refutation. *)
Lemma C38_lookup_partial_proof : forall (A : Type) (eqb : A -> A -> bool), (forall x y, eqb x y = true <-> x = y) ->
  forall a auto, NoDup a ->
  (forall k x y, 0 <= k -> baseline_to_antennas k a None None auto = Ok (x, y) -> x <> y ->
    antennas_to_baseline eqb x y a None None auto = Ok k /\ antennas_to_baseline eqb y x a None None auto = Ok k) /\
  (forall x y, ~ In x a \/ ~ In y a -> antennas_to_baseline eqb x y a None None auto = Ok (-1)).
Proof.
  intros A eqb HE a auto HN. split; [|intros; apply lookup_absent; auto].
  intros k x y Hk HB Hxy. unfold baseline_to_antennas in HB. rewrite (get_baselines_ok x) in HB by lia. cbn [bind] in HB.
  unfold py_index in HB. destruct (Z.ltb_spec k 0); [lia|]. rewrite nth_error_map in HB.
  destruct (nth_error (pairs (if auto then 0 else 1) (zlen a)) (Z.to_nat k)) as [[i j]|] eqn:E; cbn [option_map] in HB; [|discriminate].
  destruct (Z.ltb_spec k 0); [lia|]. cbn [fst snd] in HB.
  assert (Ex : x = znth x i a) by congruence. assert (Ey : y = znth x j a) by congruence.
  rewrite <- (Z2Nat.id k) by auto.
  assert (i <> j) by (intro; subst j; congruence).
  split; apply (lookup_cross eqb HE x a auto (Z.to_nat k) i j); auto; [left|right]; congruence.
Qed.
Lemma C38_lookup_example_proof : NoDup [10; 20; 30] /\ baseline_to_antennas 2 [10; 20; 30] None None false = Ok (20, 30) /\
  antennas_to_baseline Z.eqb 30 20 [10; 20; 30] None None false = Ok 2.
Proof. split; [repeat constructor; simpl; lia|split; reflexivity]. Qed.
(** C38 refuted: looking up an autocorrelation gives the first baseline with that antenna, for every antenna but the
    first; without autocorrelations the answer should be -1. *)
Lemma C38_autocorrelation_refuted_proof : forall (A : Type) (eqb : A -> A -> bool), (forall x y, eqb x y = true <-> x = y) ->
  forall (d : A) a i, NoDup a -> 1 <= i < zlen a ->
  antennas_to_baseline eqb (znth d i a) (znth d i a) a None None true = Ok i /\
  baseline_to_antennas i a None None true = Ok (znth d 0 a, znth d i a) /\
  antennas_to_baseline eqb (znth d i a) (znth d i a) a None None false = Ok (i - 1).
Proof.
  intros A eqb HE d a i HN Hi. split; [exact (lookup_auto eqb HE d a true i HN Hi)|].
  split; [|exact (lookup_auto eqb HE d a false i HN Hi)].
  unfold baseline_to_antennas. rewrite (get_baselines_ok d) by lia. cbn [bind].
  unfold py_index. destruct (Z.ltb_spec i 0); [lia|]. rewrite nth_error_map. unfold pairs. rewrite (range_cons 0) by lia. cbn [flat_map].
  rewrite nth_error_app1.
  - rewrite nth_error_map. unfold range. rewrite nth_error_map.
    rewrite (nth_error_nth' _ 0%nat) by (rewrite seq_length; lia). rewrite seq_nth by lia. cbn [option_map fst snd].
    replace (0 + 0 + Z.of_nat (0 + Z.to_nat i)) with i by lia. destruct (Z.ltb_spec i 0); [lia|reflexivity].
  - rewrite map_length. pose proof (range_len (0 + 0) (zlen a)) as L. unfold zlen in *. lia.
Qed.
Lemma C38_autocorrelation_example_proof : antennas_to_baseline Z.eqb 20 20 [10; 20; 30] None None true = Ok 1 /\
  baseline_to_antennas 1 [10; 20; 30] None None true = Ok (10, 20) /\ baseline_to_antennas 3 [10; 20; 30] None None true = Ok (20, 20).
Proof. repeat split; reflexivity. Qed.

(** C39: splitting a merged FITS-IDI / measurement set number gives the antennas back, for every number
    of bits; the numbers order like the pairs. *)
Lemma C39_bits_proof : forall s a b, 0 <= s -> 0 <= a < 2 ^ s -> 0 <= b < 2 ^ s -> split_bits s (merge_bits s a b) = (a, b).
Proof. exact split_merge_bits. Qed.
Lemma C39_bits_order_proof : forall s a b c d, 0 <= s -> 0 <= b < 2 ^ s -> 0 <= d < 2 ^ s ->
  (merge_bits s a b < merge_bits s c d <-> lex_lt (a, b) (c, d)).
Proof. exact merge_bits_lt. Qed.
(** UVFITS: all antenna numbers below 2048, both packings. *)
Lemma C39_uvfits_proof : forall a b, 0 <= a < 2048 -> 0 <= b < 2048 -> split_uvfits (merge_uvfits a b) = (a, b).
Proof. exact split_merge_uvfits. Qed.
(** Two different pairs never share a number. *)
Lemma C39_unambiguous_proof :
  (forall s a b c d, 0 <= s -> 0 <= a < 2 ^ s -> 0 <= b < 2 ^ s -> 0 <= c < 2 ^ s -> 0 <= d < 2 ^ s ->
     merge_bits s a b = merge_bits s c d -> (a, b) = (c, d)) /\
  (forall a b c d, 0 <= a < 2048 -> 0 <= b < 2048 -> 0 <= c < 2048 -> 0 <= d < 2048 ->
     merge_uvfits a b = merge_uvfits c d -> (a, b) = (c, d)).
Proof.
  split.
  - intros s a b c d Hs Ha Hb Hc Hd H. rewrite <- (split_merge_bits s a b), <- (split_merge_bits s c d) by auto. f_equal. exact H.
  - intros a b c d Ha Hb Hc Hd H. rewrite <- (split_merge_uvfits a b), <- (split_merge_uvfits c d) by auto. f_equal. exact H.
Qed.
Lemma C39_bits_example_proof : merge_bits 8 3 200 = 968 /\ split_bits 8 968 = (3, 200) /\ merge_uvfits 3 256 = 71936 /\ split_uvfits 71936 = (3, 256).
Proof. repeat split; reflexivity. Qed.
