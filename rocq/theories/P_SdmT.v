From Coq Require Import List ZArith Bool Lia.
From Verif Require Import M_Py M_Sdm S_Sdm P_Sdm.
Import ListNotations.
Open Scope Z_scope.

(** C141: when every antenna is of a stand and polarization of the table, as many antennas as given are returned, in the same order, and
    each has the status of its stand and polarization; nothing else of any antenna is changed. *)
Lemma C141_updated_partial_proof : forall table h ants, (forall a, In a ants -> exists v, table_status table (stand_id (h a)) (pol (h a)) = Some v) ->
  exists h', update_antennas table h ants = (Ok ants, h') /\ updated table h h' ants.
Proof.
  intros table h ants H. destruct (loop_ok table ants h [] H) as (h' & L & U). exists h'. split; [|exact U]. specialize (L []). rewrite app_nil_r in L. unfold update_antennas. rewrite L. reflexivity.
Qed.
(** C141: an antenna of a stand above the table, or as far below it, is an IndexError, after which the antennas before it have their new status and the ones
    after it have not. *)
Lemma C141_error_partial_proof : forall table h before a after, (forall b, In b before -> exists v, table_status table (stand_id (h b)) (pol (h b)) = Some v) ->
  Z.of_nat (length table) < stand_id (h a) \/ stand_id (h a) <= - Z.of_nat (length table) -> exists h', update_antennas table h (before ++ a :: after) = (Raise IndexError, h') /\ updated table h h' before.
Proof.
  intros table h before a after H G. destruct (loop_ok table before h [] H) as (h' & L & U). exists h'. split; [|exact U]. unfold update_antennas. rewrite L. cbn [update_loop].
  destruct (U a) as (E & _). rewrite E. destruct G as [G|G]; [|unfold item; destruct (Z.ltb_spec (stand_id (h a) - 1) 0); [|lia]; destruct (Z.ltb_spec (stand_id (h a) - 1 + Z.of_nat (length table)) 0); [reflexivity|lia]].
  rewrite item_nonneg by lia. replace (nth_error table (Z.to_nat (stand_id (h a) - 1))) with (@None (list Z)) by (symmetry; apply nth_error_None; lia). reflexivity.
Qed.
(** C141: the list returned is not of new antennas: the given ones are changed. *)
Lemma C141_given_antennas_refuted_proof : forall table h a v, table_status table (stand_id (h a)) (pol (h a)) = Some v -> status (h a) <> v ->
  fst (update_antennas table h [a]) = Ok [a] /\ snd (update_antennas table h [a]) a <> h a.
Proof.
  intros table h a v V N. unfold update_antennas. cbn [update_loop]. rewrite (item_table _ _ _ _ V). cbn [app fst snd]. split; [reflexivity|]. unfold set_status. rewrite Nat.eqb_refl. intro E. apply N. rewrite <- E. reflexivity.
Qed.
(** C141: an antenna of stand 0, which is in no table, is no error but gets the status of the last stand. *)
Lemma C141_stand_zero_refuted_proof : forall table last h a v, stand_id (h a) = 0 -> 0 <= pol (h a) -> nth_error last (Z.to_nat (pol (h a))) = Some v ->
  table_status (table ++ [last]) (stand_id (h a)) (pol (h a)) = None /\
  fst (update_antennas (table ++ [last]) h [a]) = Ok [a] /\ status (snd (update_antennas (table ++ [last]) h [a]) a) = v.
Proof.
  intros table last h a v Z0 P V. split; [unfold table_status; rewrite Z0; reflexivity|]. unfold update_antennas. cbn [update_loop]. rewrite Z0.
  assert (E : item (table ++ [last]) (0 - 1) = Ok last).
  { unfold item. change (0 - 1 <? 0) with true. cbv iota zeta. assert (L : 0 - 1 + Z.of_nat (length (table ++ [last])) = Z.of_nat (length table)) by (rewrite app_length; cbn [length]; lia). rewrite L.
    destruct (Z.ltb_spec (Z.of_nat (length table)) 0); [lia|]. rewrite Nat2Z.id, nth_error_app2, Nat.sub_diag by lia. reflexivity. }
  rewrite E. cbn [bind]. rewrite item_nonneg by exact P. rewrite V. cbn [app fst snd]. split; [reflexivity|]. unfold set_status. rewrite Nat.eqb_refl. reflexivity.
Qed.
(** Two antennas, one of stand 0 and one out of the table. *)
Lemma C141_example_proof : let r := update_antennas [[7; 8]; [9; 10]] ex_objects in
  fst (r [0%nat; 1%nat]) = Ok [0%nat; 1%nat] /\ map (fun a => status (snd (r [0%nat; 1%nat]) a)) [0%nat; 1%nat; 2%nat] = [7; 10; 3] /\
  status (snd (r [2%nat]) 2%nat) = 9 /\ fst (r [0%nat; 3%nat; 1%nat]) = Raise IndexError /\ map (fun a => status (snd (r [0%nat; 3%nat; 1%nat]) a)) [0%nat; 1%nat] = [7; 3].
Proof. repeat split; reflexivity. Qed.

(** C142: a list as long as the product of the dimensions is made a list of lists of the first dimension, whose element at any indices
    within the dimensions is the element of the list at that place in row-major order. *)
Lemma C142_elements_proof : forall l shape, shape <> [] -> Forall (fun d => d <> 0%nat) shape -> fold_left Nat.mul shape 1%nat = length l ->
  exists out, flat_to_multi l shape = Ok out /\ length out = hd 0%nat shape /\
    forall idx, Forall2 lt idx shape -> exists v, nth_error l (row_major shape idx) = Some v /\ get idx (Node out) = Some (Leaf v).
Proof.
  intros l shape N F H. unfold flat_to_multi. rewrite H, Nat.eqb_refl. cbn [negb]. destruct (group_get shape (map Leaf l) N F) as (out & G & L & Gt); [rewrite map_length; exact H|].
  exists out. split; [exact G|]. split; [exact L|]. intros idx I. rewrite (Gt idx I). pose proof (row_bound shape idx I) as B. rewrite H in B.
  destruct (nth_error l (row_major shape idx)) as [v|] eqn:E; [|apply nth_error_None in E; lia]. exists v. split; [reflexivity|]. apply map_nth_error. exact E.
Qed.
(** C142: any other length is a ValueError. *)
Lemma C142_wrong_length_proof : forall l shape, fold_left Nat.mul shape 1%nat <> length l -> flat_to_multi l shape = Raise ValueError.
Proof. intros l shape H. unfold flat_to_multi. destruct (Nat.eqb_spec (fold_left Nat.mul shape 1%nat) (length l)); [contradiction|reflexivity]. Qed.
(** Two by three, and two by two by two. *)
Lemma C142_example_proof : flat_to_multi [1; 2; 3; 4; 5; 6] [2; 3]%nat = Ok [Node [Leaf 1; Leaf 2; Leaf 3]; Node [Leaf 4; Leaf 5; Leaf 6]] /\
  match flat_to_multi [1; 2; 3; 4; 5; 6; 7; 8] [2; 2; 2]%nat with Ok out => get [1; 0; 1]%nat (Node out) = Some (Leaf 6) | Raise _ => False end /\
  flat_to_multi [1; 2; 3] [2; 2]%nat = Raise ValueError.
Proof. repeat split; reflexivity. Qed.

(** C143: reading the settings of a file gives the report and update interval of every subsystem but DR5. *)
Lemma C143_intervals_partial_proof : forall report update rest old old' s, (forall s, is_short (report s)) -> (forall s, is_short (update s)) -> s <> DR5 ->
  read_report (settings_bytes report update ++ rest) old s = report s /\ read_update (settings_bytes report update ++ rest) old' s = update s.
Proof.
  intros report update rest old old' s A B N. split; destruct s; try congruence; unfold read_report, read_update, short_at, settings_bytes; cbn [place subsystems flat_map le_short app Nat.mul Nat.add nth]; apply short_back; (apply A || apply B).
Qed.
(** C143: whatever the file says, the intervals of DR5 stay what they were, -1 in a new instance. *)
Lemma C143_dr5_refuted_proof : forall report update rest, report DR5 <> -1 -> update DR5 <> -1 ->
  read_report (settings_bytes report update ++ rest) new_intervals DR5 = -1 /\ read_report (settings_bytes report update ++ rest) new_intervals DR5 <> report DR5 /\
  read_update (settings_bytes report update ++ rest) new_intervals DR5 <> update DR5.
Proof. intros report update rest A B. unfold read_report, read_update, new_intervals. auto. Qed.
(** All intervals 5 and -2. *)
Lemma C143_example_proof : map (read_report (settings_bytes (fun _ => 5) (fun _ => -2)) new_intervals) subsystems = [5; 5; 5; 5; 5; 5; -1; 5; 5] /\
  map (read_update (settings_bytes (fun _ => 5) (fun _ => -2)) new_intervals) subsystems = [-2; -2; -2; -2; -2; -2; -1; -2; -2].
Proof. split; reflexivity. Qed.

(** C144: a subsystem status can never be made text, neither a new one nor one that was read. *)
Lemma C144_text_refuted_proof : forall time, (forall z s, new_status z = Ok s -> exists e, str_status time s = Raise e) /\ (forall z, exists e, str_status time (read_status z) = Raise e) /\
  (time = Ok tt -> (forall z s, new_status z = Ok s -> str_status time s = Raise TypeError) /\ forall z, str_status time (read_status z) = Raise AttributeError).
Proof.
  intro time. assert (K : forall z s, new_status z = Ok s -> s = Code z) by (intros z s; unfold new_status; destruct (existsb (Z.eqb z) codes); [intro E; injection E as <-; reflexivity|discriminate]).
  split; [|split].
  - intros z s H. rewrite (K z s H). destruct time as [u|e]; eexists; reflexivity.
  - intro z. destruct time as [u|e]; eexists; reflexivity.
  - intros ->. split; [intros z s H; rewrite (K z s H)|intro z]; reflexivity.
Qed.
(** The default status, unknown, and a status of 1 that was read. *)
Lemma C144_example_proof : new_status 6 = Ok (Code 6) /\ str_status (Ok tt) (Code 6) = Raise TypeError /\ str_status (Ok tt) (read_status 1) = Raise AttributeError /\ new_status 7 = Raise ValueError.
Proof. repeat split; reflexivity. Qed.
