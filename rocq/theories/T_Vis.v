(** Property theorems (generated from P_VisT.v by tools/gen_theorems.py). *)
From Coq Require Import String.
From Coq Require Import List ZArith QArith Qcanon Bool Lia Permutation Sorted.
From Verif Require Import M_Vis S_Vis P_Base P_Vis P_Vis2 P_Vis3 P_VisData P_VisT.
Import ListNotations.
Open Scope Z_scope.

(** Sorting puts whole rows (baseline, uvw, data, weight and mask of all polarizations) into the order of the baselines,
    and keeps the order of rows of the same baseline.  Antenna numbers below 4096. *)
Theorem C58_sort : forall (PC : Type) h (v : vds PC) names t, shows h v names t -> antennas_below 4096 t ->
  exists h' v' t', vds_sort h v None = (h', v', Ok tt) /\ shows h' v' names t' /\ same_rest v v' /\ sorted_rows t t'.
Proof. exact C58_sort_proof. Qed.
Print Assumptions C58_sort.

Example C58_sort_example : shows ex_h ex_v ex_names ex_table /\ antennas_below 4096 ex_table /\
  map r_bl ex_table = [(1, 2); (0, 2)] /\ v_bl (snd (fst (vds_sort ex_h ex_v None))) = [(0, 2); (1, 2)].
Proof. exact C58_sort_example_proof. Qed.

(** With an order of its own, row [i] becomes the row the order asks for. *)
Theorem C58_sort_order : forall (PC : Type) h (v : vds PC) names t o, shows h v names t ->
  valid_order (Z.of_nat (length t)) o -> length o = length t ->
  exists h' v' t', vds_sort h v (Some o) = (h', v', Ok tt) /\ shows h' v' names t' /\ same_rest v v' /\ picks t o t'.
Proof. exact C58_sort_order_proof. Qed.
Print Assumptions C58_sort_order.

Example C58_sort_order_example : valid_order (Z.of_nat (length ex_table)) [-1; 0] /\ picks ex_table [-1; 0] [ex_row2; ex_row1].
Proof. exact C58_sort_order_example_proof. Qed.

(** A position out of range is an IndexError and changes nothing. *)
Theorem C58_sort_bad_order : forall (PC : Type) h (v : vds PC) names t o, shows h v names t ->
  ~ valid_order (Z.of_nat (length t)) o -> vds_sort h v (Some o) = (h, v, Raise IndexError).
Proof. exact C58_sort_bad_order_proof. Qed.
Print Assumptions C58_sort_bad_order.

Example C58_sort_bad_order_example : ~ valid_order (Z.of_nat (length ex_table)) [0; 2].
Proof. exact C58_sort_bad_order_example_proof. Qed.

(** REFUTED: an order of the wrong length is a ValueError after the baselines were changed: no table any more. *)
Theorem C58_sort_wrong_length_refuted : forall (PC : Type) h (v : vds PC) names t o, shows h v names t -> names <> [] ->
  valid_order (Z.of_nat (length t)) o -> length o <> length t ->
  exists h' v', vds_sort h v (Some o) = (h', v', Raise ValueError) /\ forall names' t', ~ shows h' v' names' t'.
Proof. exact C58_sort_wrong_length_refuted_proof. Qed.
Print Assumptions C58_sort_wrong_length_refuted.

Example C58_sort_wrong_length_example : shows ex_h ex_v ex_names ex_table /\ ex_names <> [] /\ valid_order (Z.of_nat (length ex_table)) [1] /\
  v_bl (snd (fst (vds_sort ex_h ex_v (Some [1])))) = [(0, 2)].
Proof. exact C58_sort_wrong_length_example_proof. Qed.

(** REFUTED: two data sets that were given the same polarization object: sorting one breaks the other. *)
Theorem C58_sort_shared_refuted : exists h (v w : vds Z) names t h' v',
  shows h v names t /\ shows h w names t /\ vds_sort h v None = (h', v', Ok tt) /\ ~ shows h' w names t.
Proof. exact C58_sort_shared_refuted_proof. Qed.
Print Assumptions C58_sort_shared_refuted.

(** REFUTED: baselines are compared by 4096 a + b, which is not the order of (a, b) from antenna 4096 on. *)
Theorem C58_sort_large_antenna_refuted : exists h (v : vds Z) names t h' v', shows h v names t /\ vds_sort h v None = (h', v', Ok tt) /\
  forall t', shows h' v' names t' -> ~ sorted_rows t t'.
Proof. exact C58_sort_large_antenna_refuted_proof. Qed.
Print Assumptions C58_sort_large_antenna_refuted.

(** A uv range gives a new data set with exactly the rows whose distance, at the central channel, is within the limits
    (whichever of the two comes first), in their order. *)
Theorem C58_uv_range : forall (PC : Type) h (v : vds PC) names t lo hi, shows h v names t ->
  v_freq v <> [] -> Forall (fun r => length (r_uvw r) = length (v_freq v)) t ->
  exists h' c t', get_uv_range h v lo hi = (h', Ok c) /\ shows h' c names t' /\ same_rest v c /\ shows h' v names t /\ separate v c /\
    rows_with (fun r => uv_within (length (v_freq v) / 2) lo hi r \/ uv_within (length (v_freq v) / 2) hi lo r) t t'.
Proof. exact C58_uv_range_proof. Qed.
Print Assumptions C58_uv_range.

Example C58_uv_range_example : Forall (fun r => length (r_uvw r) = length (v_freq ex_v)) ex_table /\
  uv_within 0 (Lim 2) (Lim 6) ex_row2 /\ ~ uv_within 0 (Lim 2) (Lim 6) ex_row1.
Proof. exact C58_uv_range_example_proof. Qed.

(** An antenna selection by positions keeps exactly the rows both of whose antennas are selected, in their order:
    include wins over exclude. *)
Theorem C58_antenna_subset : forall (PC : Type) h (v : vds PC) names t inc exc i e stands, shows h v names t ->
  read_include inc = Ok i -> read_exclude exc = Ok e -> v_aa v = Some stands ->
  exists h' c t', get_antenna_subset h v inc exc true = (h', Ok c) /\ shows h' c names t' /\ same_rest v c /\ shows h' v names t /\ separate v c /\
    rows_with (fun r => kept (Z.of_nat (length stands)) i e (fst (r_bl r)) /\ kept (Z.of_nat (length stands)) i e (snd (r_bl r))) t t'.
Proof. exact C58_antenna_subset_proof. Qed.
Print Assumptions C58_antenna_subset.

Example C58_antenna_subset_example : shows ex_h ex_v ex_names ex_table /\ read_include (AList [1; 2]) = Ok (Some [1; 2]) /\ read_exclude (AInt 2) = Ok [2] /\ v_aa ex_v = Some [10; 20; 30] /\
  kept 3 (Some [1; 2]) [2] 2 /\ ~ kept 3 (Some [1; 2]) [2] 0 /\ ~ kept 3 None [2] 2.
Proof. exact C58_antenna_subset_example_proof. Qed.

(** The same by stand numbers: each stand is the first antenna at that stand; unknown stands are ignored. *)
Theorem C58_antenna_stands : forall (PC : Type) h (v : vds PC) names t inc exc i e stands, shows h v names t ->
  read_include inc = Ok i -> read_exclude exc = Ok e -> v_aa v = Some stands ->
  exists h' c t' i' e', get_antenna_subset h v inc exc false = (h', Ok c) /\ shows h' c names t' /\ same_rest v c /\ shows h' v names t /\ separate v c /\
    match i, i' with Some l, Some l' => at_stands stands l l' | None, None => True | _, _ => False end /\ at_stands stands e e' /\
    rows_with (fun r => kept (Z.of_nat (length stands)) i' e' (fst (r_bl r)) /\ kept (Z.of_nat (length stands)) i' e' (snd (r_bl r))) t t'.
Proof. exact C58_antenna_stands_proof. Qed.
Print Assumptions C58_antenna_stands.

Example C58_antenna_stands_example : at_stands [10; 20; 30] [30; 99] [2].
Proof. exact C58_antenna_stands_example_proof. Qed.

(** What is not an accepted way to write a selection is a TypeError and makes nothing. *)
Theorem C58_antenna_bad_argument : forall (PC : Type) h (v : vds PC) inc exc ind,
  (exists s, inc = AStr s /\ s <> "all"%string) \/ (exists n, inc = AInt n) \/ (exists s, exc = AStr s /\ s <> "none"%string) ->
  get_antenna_subset h v inc exc ind = (h, Raise TypeError).
Proof. exact C58_antenna_bad_argument_proof. Qed.
Print Assumptions C58_antenna_bad_argument.

(** Appending a polarization adds a cell to every row; one with a name that is there replaces its cells; one with
    another number of rows is a RuntimeError. *)
Theorem C58_append_new : forall (PC : Type) h (v : vds PC) names t n cells, shows h v names t -> length cells = length t ->
  upper n = n -> ~ In n names ->
  let (h', r) := new_pol h (pol_of n cells) in
  exists v', append h' v r = Ok v' /\ shows h' v' (names ++ [n]) (map add_cell (combine t cells)) /\ same_rest v v'.
Proof. exact C58_append_new_proof. Qed.
Print Assumptions C58_append_new.

Theorem C58_append_replaces : forall (PC : Type) h (v : vds PC) names t n k cells, shows h v names t -> length cells = length t ->
  nth_error names k = Some n ->
  let (h', r) := new_pol h (pol_of n cells) in
  exists v', append h' v r = Ok v' /\ shows h' v' names (map (put_cell k) (combine t cells)) /\ same_rest v v'.
Proof. exact C58_append_replaces_proof. Qed.
Print Assumptions C58_append_replaces.

Theorem C58_append_mismatch : forall (PC : Type) h (v : vds PC) names t p, shows h v names t -> length (p_data p) <> length t ->
  let (h', r) := new_pol h p in append h' v r = Raise RuntimeError.
Proof. exact C58_append_mismatch_proof. Qed.
Print Assumptions C58_append_mismatch.

Example C58_append_example : shows ex_h ex_v ex_names ex_table /\ length [ex_cell 5 true; ex_cell 6 true] = length ex_table /\ upper "XY" = "XY"%string /\ ~ In "XY"%string ex_names /\
  map (fun r => length (r_cells r)) (map add_cell (combine ex_table [ex_cell 5 true; ex_cell 6 true])) = [3; 3]%nat.
Proof. exact C58_append_example_proof. Qed.

(** REFUTED: only the rows of the data are counted: weights and masks of another size are accepted. *)
Theorem C58_append_weights_refuted : exists h (v : vds Z) names t p, shows h v names t /\
  (let (h', r) := new_pol h p in exists v', append h' v r = Ok v' /\ forall names' t', ~ shows h' v' names' t').
Proof. exact C58_append_weights_refuted_proof. Qed.
Print Assumptions C58_append_weights_refuted.

(** A copy shows the same table, and whatever is then done to one of the two (sorting, rephasing, appending, in any
    number and order, with or without errors) leaves the other as it was. *)
Theorem C59_copy_independent : forall (PC : Type) h (v : vds PC) names t, shows h v names t ->
  exists h' c, copy h v true = (h', Ok c) /\ shows h' c names t /\ same_rest v c /\
    forall A ops, shows (fst (do_ops A (h', c) ops)) v names t /\ shows (fst (do_ops A (h', v) ops)) c names t.
Proof. exact C59_copy_independent_proof. Qed.
Print Assumptions C59_copy_independent.

Example C59_copy_example : shows ex_h ex_v ex_names ex_table /\ fst (copy ex_h ex_v true) <> ex_h.
Proof. exact C59_copy_example_proof. Qed.

(** A selection or a copy without polarizations is independent of the original in the same way. *)
Theorem C59_bare_copy_independent : forall (PC : Type) h (v : vds PC) names t, shows h v names t ->
  exists h' c, copy h v false = (h', Ok c) /\ v_bl c = map r_bl t /\ nth_error (ha h') (v_uvw c) = Some (map r_uvw t) /\ v_pols c = [] /\ same_rest v c /\
    forall A ops, shows (fst (do_ops A (h', c) ops)) v names t.
Proof. exact C59_bare_copy_independent_proof. Qed.
Print Assumptions C59_bare_copy_independent.

Theorem C59_selection_independent : forall (PC : Type) h (v c : vds PC) names t names' t' A ops,
  shows h v names t -> shows h c names' t' -> separate v c ->
  shows (fst (do_ops A (h, c) ops)) v names t /\ shows (fst (do_ops A (h, v) ops)) c names' t'.
Proof. exact C59_selection_independent_proof. Qed.
Print Assumptions C59_selection_independent.

(** Whatever data sets are appended: no two integrations of the same date, and all with the number of baselines,
    channels and polarizations of the first (where that is not zero). *)
Theorem C60_append : forall (PC : Type) (vs : list (vds PC)),
  different_dates (appended vs) /\ (forall v, In v (appended vs) -> In v vs) /\
  forall w l, appended vs = w :: l -> Forall (fun v =>
    (v_bl w <> [] -> length (v_bl v) = length (v_bl w)) /\ (v_freq w <> [] -> length (v_freq v) = length (v_freq w)) /\
    (v_pols w <> [] -> length (v_pols v) = length (v_pols w))) l.
Proof. exact C60_append_proof. Qed.
Print Assumptions C60_append.

Example C60_append_example : appended [ex_set 1 0 0 ex_table; ex_set 1 1 2 ex_table; ex_set 2 1 2 [ex_row1]; ex_set 3 1 2 ex_table] =
  [ex_set 1 0 0 ex_table; ex_set 3 1 2 ex_table].
Proof. exact C60_append_example_proof. Qed.

(** Copying, and sorting by date and baseline, of a VisibilityData whose data sets share no object. *)
Theorem C60_copy : forall (PC : Type) h (its : list (@item PC)) nb, all_show h its -> different_dates (sets its) -> uniform its ->
  Forall (fun x => length (shown_rows x) = nb) its ->
  exists h' its', vd_copy h (sets its) true = (h', Ok (sets its')) /\ all_show h' its' /\ all_show h' its /\
    Forall2 (other_rows (fun _ t t' => t' = t)) its its' /\ apart (sets its').
Proof. exact C60_copy_proof. Qed.
Print Assumptions C60_copy.

Theorem C60_sort : forall (PC : Type) h (its : list (@item PC)), all_show h its -> apart (sets its) ->
  Forall (fun x => antennas_below 4096 (shown_rows x)) its ->
  exists h' by_date its', vd_sort h (sets its) = (h', sets its', Ok tt) /\ all_show h' its' /\
    Permutation its by_date /\ StronglySorted (fun x y => (v_jd (fst x) <= v_jd (fst y))%Q) by_date /\
    Forall2 (other_rows (fun _ => sorted_rows)) by_date its'.
Proof. exact C60_sort_proof. Qed.
Print Assumptions C60_sort.

Example C60_sort_example : all_show ex_h2 ex_its /\ apart (sets ex_its) /\ different_dates (sets ex_its) /\ uniform ex_its /\
  Forall (fun x => antennas_below 4096 (shown_rows x)) ex_its /\ map (fun v => (v_jd v, v_bl v)) (snd (fst (vd_sort ex_h2 (sets ex_its)))) = [(1%Q, [(0, 2); (1, 2)]); (2%Q, [(0, 2); (1, 2)])].
Proof. exact C60_sort_example_proof. Qed.

(** A uv range of all integrations, where each of them keeps the same number of baselines. *)
Theorem C60_uv_range_partial : forall (PC : Type) h (its : list (@item PC)) nb lo hi, all_show h its -> different_dates (sets its) -> uniform its ->
  Forall (fun x => v_freq (fst x) <> [] /\ Forall (fun r => length (r_uvw r) = length (v_freq (fst x))) (shown_rows x) /\
    forall t', rows_with (fun r => uv_within (length (v_freq (fst x)) / 2) lo hi r \/ uv_within (length (v_freq (fst x)) / 2) hi lo r) (shown_rows x) t' -> length t' = nb) its ->
  exists h' its', vd_get_uv_range h (sets its) lo hi = (h', Ok (sets its')) /\ all_show h' its' /\ all_show h' its /\ apart (sets its') /\
    Forall2 (other_rows (fun v => rows_with (fun r => uv_within (length (v_freq v) / 2) lo hi r \/ uv_within (length (v_freq v) / 2) hi lo r))) its its'.
Proof. exact C60_uv_range_partial_proof. Qed.
Print Assumptions C60_uv_range_partial.

(** An antenna selection of all integrations, by positions, where each of them keeps the same number of baselines. *)
Theorem C60_antenna_subset_partial : forall (PC : Type) h (its : list (@item PC)) nb inc exc i e stands, all_show h its -> different_dates (sets its) -> uniform its ->
  read_include inc = Ok i -> read_exclude exc = Ok e ->
  Forall (fun x => v_aa (fst x) = Some stands /\
    forall t', rows_with (fun r => kept (Z.of_nat (length stands)) i e (fst (r_bl r)) /\ kept (Z.of_nat (length stands)) i e (snd (r_bl r))) (shown_rows x) t' -> length t' = nb) its ->
  exists h' its', vd_get_antenna_subset h (sets its) inc exc true = (h', Ok (sets its')) /\ all_show h' its' /\ all_show h' its /\ apart (sets its') /\
    Forall2 (other_rows (fun _ => rows_with (fun r => kept (Z.of_nat (length stands)) i e (fst (r_bl r)) /\ kept (Z.of_nat (length stands)) i e (snd (r_bl r))))) its its'.
Proof. exact C60_antenna_subset_partial_proof. Qed.
Print Assumptions C60_antenna_subset_partial.

Example C60_antenna_subset_example : all_show ex_h2 ex_its /\ Forall (fun x => v_aa (fst x) = Some [10; 20; 30] /\
    forall t', rows_with (fun r => kept 3 (Some [1; 2]) [] (fst (r_bl r)) /\ kept 3 (Some [1; 2]) [] (snd (r_bl r))) (shown_rows x) t' -> length t' = 1%nat) ex_its.
Proof. exact C60_antenna_subset_example_proof. Qed.

(** REFUTED: in a uv range whose integrations keep different numbers of baselines (the Earth turns) the second is rejected. *)
Theorem C60_uv_range_refuted : exists h (its : list (@item Z)) lo hi, all_show h its /\ different_dates (sets its) /\ uniform its /\
  snd (vd_get_uv_range h (sets its) lo hi) = Raise ValueError.
Proof. exact C60_uv_range_refuted_proof. Qed.
Print Assumptions C60_uv_range_refuted.

(** REFUTED: a selection by stand numbers is taken as one by positions. *)
Theorem C60_antenna_stands_refuted : (forall (PC : Type) h (l : vdata PC) inc exc,
    vd_get_antenna_subset h l inc exc false = vd_get_antenna_subset h l inc exc true) /\
  exists h (v : vds Z) names t, shows h v names t /\
    match get_antenna_subset h v (AList [20; 30]) ANone false, vd_get_antenna_subset h [v] (AList [20; 30]) ANone false with
    | (_, Ok c), (_, Ok [c']) => v_bl c = [(1, 2)] /\ v_bl c' = []
    | _, _ => False
    end.
Proof. exact C60_antenna_stands_refuted_proof. Qed.
Print Assumptions C60_antenna_stands_refuted.

(** REFUTED: extend() takes data sets that append() rejects; copying the result is then an error. *)
Theorem C60_extend_refuted : exists h (v w : vds Z) names t, shows h v names t /\ shows h w names t /\
  vd_append [v] w = Raise ValueError /\ snd (vd_copy h (vd_extend [v] [w]) true) = Raise ValueError.
Proof. exact C60_extend_refuted_proof. Qed.
Print Assumptions C60_extend_refuted.

(** REFUTED: after a first integration without baselines anything is accepted. *)
Theorem C60_append_after_empty_refuted : exists vs : list (vds Z), map (fun v => length (v_bl v)) (appended vs) = [0; 1; 2]%nat.
Proof. exact C60_append_after_empty_refuted_proof. Qed.
Print Assumptions C60_append_after_empty_refuted.

(** Moving the phase center gives every row the uvw coordinates of the new center and its visibilities rotated to it. *)
Theorem C64_rephase : forall (PC : Type) (A : aipy PC) up h v names t old new aa,
  sound_aipy A up -> shows h v names t -> v_pc v = Some old -> v_aa v = Some aa ->
  up (v_jd v) aa old = true -> up (v_jd v) aa new = true -> names <> [] ->
  exists h' v' t', rephase A h v new = (h', v', Ok tt) /\ shows h' v' names t' /\ v_pc v' = Some new /\
    v_jd v' = v_jd v /\ v_freq v' = v_freq v /\ v_aa v' = v_aa v /\ v_extra v' = v_extra v /\
    Forall2 (moved A (v_jd v) aa old new) t t'.
Proof. exact C64_rephase_proof. Qed.
Print Assumptions C64_rephase.

(** There and back again: the visibilities, weights, masks, baselines and phase center are what they were, and the uvw
    coordinates those of the old center. *)
Theorem C64_there_and_back : forall (PC : Type) (A : aipy PC) up h v names t old new aa,
  sound_aipy A up -> shows h v names t -> v_pc v = Some old -> v_aa v = Some aa ->
  up (v_jd v) aa old = true -> up (v_jd v) aa new = true -> names <> [] ->
  exists h1 v1 h2 v2 t2, rephase A h v new = (h1, v1, Ok tt) /\ rephase A h1 v1 old = (h2, v2, Ok tt) /\
    shows h2 v2 names t2 /\ same_rest v v2 /\
    Forall2 (fun r r2 => r_bl r2 = r_bl r /\ r_cells r2 = r_cells r /\ gen_uvw A (v_jd v) aa old (snd (r_bl r), fst (r_bl r)) = Some (r_uvw r2)) t t2.
Proof. exact C64_there_and_back_proof. Qed.
Print Assumptions C64_there_and_back.

(** A center below the horizon is a RuntimeError that changes nothing. *)
Theorem C64_below_horizon : forall (PC : Type) (A : aipy PC) up h v names t old new aa,
  sound_aipy A up -> shows h v names t -> v_pc v = Some old -> v_aa v = Some aa ->
  up (v_jd v) aa old = false \/ up (v_jd v) aa new = false -> names <> [] -> t <> [] ->
  rephase A h v new = (h, v, Raise RuntimeError).
Proof. exact C64_below_horizon_proof. Qed.
Print Assumptions C64_below_horizon.

Example C64_rephase_example : sound_aipy ex_aipy ex_up /\ shows ex_h ex_v ex_names ex_table /\ v_pc ex_v = Some 0 /\ ex_up (v_jd ex_v) [10; 20; 30] 1 = true /\ ex_up 2 [10; 20; 30] 1 = false /\
  snd (rephase ex_aipy ex_h ex_v 1) = Ok tt /\ snd (rephase ex_aipy ex_h (ex_set 2 0 0 ex_table) 1) = Raise RuntimeError.
Proof. exact C64_rephase_example_proof. Qed.

(** All integrations: with ignore_errors, those whose centers are both up are moved and the others are left exactly as
    they were; without, all of them are moved, if they can be. *)
Theorem C64_integrations : forall (PC : Type) (A : aipy PC) up new ign h its, sound_aipy A up -> all_show h its -> apart (sets its) ->
  Forall (fun x => shown_names x <> [] /\ shown_rows x <> [] /\ exists old aa, v_pc (fst x) = Some old /\ v_aa (fst x) = Some aa /\
    (ign = true \/ (up (v_jd (fst x)) aa old = true /\ up (v_jd (fst x)) aa new = true))) its ->
  exists h' its', vd_rephase A new ign h (sets its) = (h', sets its', Ok tt) /\ all_show h' its' /\
    Forall2 (fun x y => exists old aa, v_pc (fst x) = Some old /\ v_aa (fst x) = Some aa /\
      if up (v_jd (fst x)) aa old && up (v_jd (fst x)) aa new
      then v_pc (fst y) = Some new /\ v_jd (fst y) = v_jd (fst x) /\ shown_names y = shown_names x /\
           Forall2 (moved A (v_jd (fst x)) aa old new) (shown_rows x) (shown_rows y)
      else y = x) its its'.
Proof. exact C64_integrations_proof. Qed.
Print Assumptions C64_integrations.

Example C64_integrations_example : all_show ex_h2 ex_its /\ apart (sets ex_its) /\
  map v_pc (snd (fst (vd_rephase ex_aipy 1 true ex_h2 (sets ex_its)))) = [Some 0; Some 1].
Proof. exact C64_integrations_example_proof. Qed.

(** REFUTED: without ignore_errors an integration that cannot be moved stops the call, and those before it stay moved. *)
Theorem C64_integrations_atomic_refuted : exists (A : aipy Z) up h its h' l', sound_aipy A up /\ all_show h its /\ apart (sets its) /\
  vd_rephase A 1 false h (sets its) = (h', l', Raise RuntimeError) /\ map v_pc (sets its) = [Some 0; Some 0] /\ map v_pc l' = [Some 1; Some 0].
Proof. exact C64_integrations_atomic_refuted_proof. Qed.
Print Assumptions C64_integrations_atomic_refuted.

(** REFUTED: of a data set without polarizations only the phase center is changed: the uvw coordinates are those of the old one. *)
Theorem C64_no_polarizations_refuted : forall (PC : Type) (A : aipy PC) h v old new aa, v_pc v = Some old -> v_aa v = Some aa -> v_pols v = [] ->
  rephase A h v new = (h, with_pc v new, Ok tt).
Proof. exact C64_no_polarizations_refuted_proof. Qed.
Print Assumptions C64_no_polarizations_refuted.
