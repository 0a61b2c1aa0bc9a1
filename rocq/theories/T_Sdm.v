(** Property theorems (generated from P_SdmT.v by tools/gen_theorems.py). *)
From Coq Require Import List ZArith Bool Lia.
From Verif Require Import M_Py M_Sdm S_Sdm P_Sdm P_SdmT.
Import ListNotations.
Open Scope Z_scope.

(** C141: when every antenna is of a stand and polarization of the table, as many antennas as given are returned, in the same order, and
    each has the status of its stand and polarization; nothing else of any antenna is changed. *)
Theorem C141_updated_partial : forall table h ants, (forall a, In a ants -> exists v, table_status table (stand_id (h a)) (pol (h a)) = Some v) ->
  exists h', update_antennas table h ants = (Ok ants, h') /\ updated table h h' ants.
Proof. exact C141_updated_partial_proof. Qed.
Print Assumptions C141_updated_partial.

(** C141: an antenna of a stand above the table, or as far below it, is an IndexError, after which the antennas before it have their new status and the ones
    after it have not. *)
Theorem C141_error_partial : forall table h before a after, (forall b, In b before -> exists v, table_status table (stand_id (h b)) (pol (h b)) = Some v) ->
  Z.of_nat (length table) < stand_id (h a) \/ stand_id (h a) <= - Z.of_nat (length table) -> exists h', update_antennas table h (before ++ a :: after) = (Raise IndexError, h') /\ updated table h h' before.
Proof. exact C141_error_partial_proof. Qed.
Print Assumptions C141_error_partial.

(** C141: the list returned is not of new antennas: the given ones are changed. *)
Theorem C141_given_antennas_refuted : forall table h a v, table_status table (stand_id (h a)) (pol (h a)) = Some v -> status (h a) <> v ->
  fst (update_antennas table h [a]) = Ok [a] /\ snd (update_antennas table h [a]) a <> h a.
Proof. exact C141_given_antennas_refuted_proof. Qed.
Print Assumptions C141_given_antennas_refuted.

(** C141: an antenna of stand 0, which is in no table, is no error but gets the status of the last stand. *)
Theorem C141_stand_zero_refuted : forall table last h a v, stand_id (h a) = 0 -> 0 <= pol (h a) -> nth_error last (Z.to_nat (pol (h a))) = Some v ->
  table_status (table ++ [last]) (stand_id (h a)) (pol (h a)) = None /\
  fst (update_antennas (table ++ [last]) h [a]) = Ok [a] /\ status (snd (update_antennas (table ++ [last]) h [a]) a) = v.
Proof. exact C141_stand_zero_refuted_proof. Qed.
Print Assumptions C141_stand_zero_refuted.

(** Two antennas, one of stand 0 and one out of the table. *)
Example C141_example : let r := update_antennas [[7; 8]; [9; 10]] ex_objects in
  fst (r [0%nat; 1%nat]) = Ok [0%nat; 1%nat] /\ map (fun a => status (snd (r [0%nat; 1%nat]) a)) [0%nat; 1%nat; 2%nat] = [7; 10; 3] /\
  status (snd (r [2%nat]) 2%nat) = 9 /\ fst (r [0%nat; 3%nat; 1%nat]) = Raise IndexError /\ map (fun a => status (snd (r [0%nat; 3%nat; 1%nat]) a)) [0%nat; 1%nat] = [7; 3].
Proof. exact C141_example_proof. Qed.

(** C142: a list as long as the product of the dimensions is made a list of lists of the first dimension, whose element at any indices
    within the dimensions is the element of the list at that place in row-major order. *)
Theorem C142_elements : forall l shape, shape <> [] -> Forall (fun d => d <> 0%nat) shape -> fold_left Nat.mul shape 1%nat = length l ->
  exists out, flat_to_multi l shape = Ok out /\ length out = hd 0%nat shape /\
    forall idx, Forall2 lt idx shape -> exists v, nth_error l (row_major shape idx) = Some v /\ get idx (Node out) = Some (Leaf v).
Proof. exact C142_elements_proof. Qed.
Print Assumptions C142_elements.

(** C142: any other length is a ValueError. *)
Theorem C142_wrong_length : forall l shape, fold_left Nat.mul shape 1%nat <> length l -> flat_to_multi l shape = Raise ValueError.
Proof. exact C142_wrong_length_proof. Qed.
Print Assumptions C142_wrong_length.

(** Two by three, and two by two by two. *)
Example C142_example : flat_to_multi [1; 2; 3; 4; 5; 6] [2; 3]%nat = Ok [Node [Leaf 1; Leaf 2; Leaf 3]; Node [Leaf 4; Leaf 5; Leaf 6]] /\
  match flat_to_multi [1; 2; 3; 4; 5; 6; 7; 8] [2; 2; 2]%nat with Ok out => get [1; 0; 1]%nat (Node out) = Some (Leaf 6) | Raise _ => False end /\
  flat_to_multi [1; 2; 3] [2; 2]%nat = Raise ValueError.
Proof. exact C142_example_proof. Qed.

(** C143: reading the settings of a file gives the report and update interval of every subsystem but DR5. *)
Theorem C143_intervals_partial : forall report update rest old old' s, (forall s, is_short (report s)) -> (forall s, is_short (update s)) -> s <> DR5 ->
  read_report (settings_bytes report update ++ rest) old s = report s /\ read_update (settings_bytes report update ++ rest) old' s = update s.
Proof. exact C143_intervals_partial_proof. Qed.
Print Assumptions C143_intervals_partial.

(** C143: whatever the file says, the intervals of DR5 stay what they were, -1 in a new instance. *)
Theorem C143_dr5_refuted : forall report update rest, report DR5 <> -1 -> update DR5 <> -1 ->
  read_report (settings_bytes report update ++ rest) new_intervals DR5 = -1 /\ read_report (settings_bytes report update ++ rest) new_intervals DR5 <> report DR5 /\
  read_update (settings_bytes report update ++ rest) new_intervals DR5 <> update DR5.
Proof. exact C143_dr5_refuted_proof. Qed.
Print Assumptions C143_dr5_refuted.

(** All intervals 5 and -2. *)
Example C143_example : map (read_report (settings_bytes (fun _ => 5) (fun _ => -2)) new_intervals) subsystems = [5; 5; 5; 5; 5; 5; -1; 5; 5] /\
  map (read_update (settings_bytes (fun _ => 5) (fun _ => -2)) new_intervals) subsystems = [-2; -2; -2; -2; -2; -2; -1; -2; -2].
Proof. exact C143_example_proof. Qed.

(** C144: a subsystem status can never be made text, neither a new one nor one that was read. *)
Theorem C144_text_refuted : forall time, (forall z s, new_status z = Ok s -> exists e, str_status time s = Raise e) /\ (forall z, exists e, str_status time (read_status z) = Raise e) /\
  (time = Ok tt -> (forall z s, new_status z = Ok s -> str_status time s = Raise TypeError) /\ forall z, str_status time (read_status z) = Raise AttributeError).
Proof. exact C144_text_refuted_proof. Qed.
Print Assumptions C144_text_refuted.

(** The default status, unknown, and a status of 1 that was read. *)
Example C144_example : new_status 6 = Ok (Code 6) /\ str_status (Ok tt) (Code 6) = Raise TypeError /\ str_status (Ok tt) (read_status 1) = Raise AttributeError /\ new_status 7 = Raise ValueError.
Proof. exact C144_example_proof. Qed.
