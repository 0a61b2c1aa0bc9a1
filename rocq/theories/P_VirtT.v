From Coq Require Import List ZArith Bool QArith Lia Permutation.
From Verif Require Import M_Py M_Virt S_Virt P_Virt.
Import ListNotations.
Open Scope Z_scope.

(** C149: a data set is added to a writer when its time is new and it is as large as the others, as the last set, and the sets before
    keep their numbers; any other raises ValueError. *)
Lemma C149_added_proof : forall w d, holds w ->
  (fits w d -> add w d = Ok (w ++ [d]) /\ get_data_set (w ++ [d]) [Z.of_nat (length w) + 1] false = (Ok [length w], w ++ [d]) /\ nth_error (w ++ [d]) (length w) = Some d /\
     forall j, (j < length w)%nat -> nth_error (w ++ [d]) j = nth_error w j) /\
  (~ fits w d -> add w d = Raise ValueError).
Proof.
  intros w d H. destruct (holds_inv w H) as [S0 _]. pose proof (accept_iff w d S0) as A. unfold add. split; intro F.
  - rewrite (proj2 A F). split; [reflexivity|]. assert (N : nth_error (w ++ [d]) (length w) = Some d) by (rewrite nth_error_app2, Nat.sub_diag by lia; reflexivity). split; [|split; [exact N|intros j J; apply nth_error_app1; exact J]].
    unfold get_data_set. cbn [pick]. destruct (Z.ltb_spec (Z.of_nat (length w) + 1 - 1) 0); [lia|]. destruct (Z.ltb_spec (Z.of_nat (length w) + 1 - 1) 0); [lia|]. replace (Z.to_nat (Z.of_nat (length w) + 1 - 1)) with (length w) by lia. rewrite N. reflexivity.
  - destruct (accept w d) eqn:X; [exfalso; apply F; apply A; reflexivity|reflexivity].
Qed.
(** C149: so a second polarization of the same time, which is a data set of its own, cannot be added. *)
Lemma C149_second_polarization_refuted_proof : forall w d e, holds w -> In e w -> (jd d == jd e)%Q -> add w d = Raise ValueError.
Proof. intros w d e H I J. apply (C149_added_proof w d H). intro F. exact (proj1 (F e I) J). Qed.

(** C150: without sorting, distinct set numbers from one on give the sets of these numbers, in the order they are given, and leave the
    writer as it is. *)
Lemma C150_sets_proof : forall w sets, holds w -> NoDup sets -> (forall s, In s sets -> 1 <= s <= Z.of_nat (length w)) ->
  get_data_set w sets false = (Ok (map (fun s => Z.to_nat (s - 1)) sets), w).
Proof.
  intros w sets H N R. unfold get_data_set. rewrite pick_ok; [reflexivity|exact H|exact R|]. cbn [app]. clear H. induction sets as [|s r IH]; [constructor|]. inversion N as [|? ? N1 N2]; subst. cbn [map]. constructor; [|apply IH; [exact N2|intros x X; apply R; right; exact X]].
  intro I. apply in_map_iff in I. destruct I as (x & E & X). apply N1. pose proof (R s (or_introl eq_refl)). pose proof (R x (or_intror X)). unfold place_of in E. replace s with x by lia. exact X.
Qed.
(** C150: with sorting, the same sets in order of time, each with its baselines in order. *)
Lemma C150_sorted_partial_proof : forall w sets, holds w -> NoDup sets -> (forall s, In s sets -> 1 <= s <= Z.of_nat (length w)) ->
  exists p w', get_data_set w sets true = (Ok p, w') /\ Permutation (map (fun s => Z.to_nat (s - 1)) sets) p /\ in_time w p /\ length w' = length w /\
    forall j d, nth_error w j = Some d -> exists d', nth_error w' j = Some d' /\ jd d' = jd d /\ chans d' = chans d /\ Permutation (bls d) (bls d') /\ (In j p -> ascending (bls d')) /\ (~ In j p -> d' = d).
Proof.
  intros w sets H N R. pose proof (C150_sets_proof w sets H N R) as G. unfold get_data_set in *. destruct (pick w [] sets) as [p|e]; [|discriminate]. injection G as ->. set (p := map (fun s => Z.to_nat (s - 1)) sets). exists (sort_t w p), (tidy_from 0 p w). pose proof (sort_t_perm w p) as P.
  split; [reflexivity|]. split; [exact P|]. split.
  { apply timed_in_time; [|apply sort_t_timed]. intros j J. apply (Permutation_in _ (Permutation_sym P)) in J. apply in_map_iff in J. destruct J as (s & <- & S0). specialize (R s S0). lia. }
  split; [clear; generalize 0%nat; induction w as [|d w IH]; intro k; [reflexivity|]; cbn [tidy_from length]; rewrite IH; reflexivity|].
  intros j d D. rewrite tidy_nth, D. cbn [plus]. eexists. split; [reflexivity|]. destruct (existsb (Nat.eqb j) p) eqn:X.
  - apply existsb_exists in X. destruct X as (x & I & E). apply Nat.eqb_eq in E. subst x. cbn [jd chans bls]. repeat split; [apply sort_z_perm|intros _; apply sort_z_asc|]. intro NI. exfalso. apply NI. apply (Permutation_in _ P). exact I.
  - split; [reflexivity|]. split; [reflexivity|]. split; [reflexivity|]. split; [|intros _; reflexivity]. intro I. exfalso. apply (Permutation_in _ (Permutation_sym P)) in I. assert (T : existsb (Nat.eqb j) p = true) by (apply existsb_exists; exists j; split; [exact I|apply Nat.eqb_refl]). congruence.
Qed.
(** C150: the sets sorted are those of the writer: asking for a set whose baselines are not in order changes the writer. *)
Lemma C150_writer_changed_refuted_proof : forall w s d, holds w -> 1 <= s <= Z.of_nat (length w) -> nth_error w (Z.to_nat (s - 1)) = Some d -> ~ ascending (bls d) ->
  snd (get_data_set w [s] true) <> w.
Proof.
  intros w s d H R D A. destruct (C150_sorted_partial_proof w [s] H ltac:(constructor; [intros []|constructor]) ltac:(intros x [<-|[]]; exact R)) as (p & w' & G & P & _ & _ & U). rewrite G. cbn [snd]. intros ->. destruct (U _ _ D) as (d' & D' & _ & _ & _ & As & _).
  rewrite D in D'. injection D' as <-. apply A. apply As. apply (Permutation_in _ P). left. reflexivity.
Qed.
(** C150: set 0 is not refused: it is the last set. *)
Lemma C150_set_zero_refuted_proof : forall w d, get_data_set (w ++ [d]) [0] false = (Ok [length w], w ++ [d]).
Proof.
  intros w d. unfold get_data_set. cbn [pick]. change (0 - 1 <? 0) with true. cbv iota zeta. replace (0 - 1 + Z.of_nat (length (w ++ [d]))) with (Z.of_nat (length w)) by (rewrite app_length; cbn [length]; lia). destruct (Z.ltb_spec (Z.of_nat (length w)) 0); [lia|].
  rewrite Nat2Z.id, nth_error_app2, Nat.sub_diag by lia. reflexivity.
Qed.
(** C150: a set number above the number of sets is an IndexError, and so is one as far below, whatever else is asked for after it. *)
Lemma C150_range_proof : forall w s r sort, Z.of_nat (length w) < s \/ s <= - Z.of_nat (length w) -> get_data_set w (s :: r) sort = (Raise IndexError, w).
Proof.
  intros w s r sort [H|H]; unfold get_data_set; cbn [pick].
  - destruct (Z.ltb_spec (s - 1) 0); [lia|]. destruct (Z.ltb_spec (s - 1) 0); [lia|]. replace (nth_error w (Z.to_nat (s - 1))) with (@None dset) by (symmetry; apply nth_error_None; lia). reflexivity.
  - destruct (Z.ltb_spec (s - 1) 0); [|lia]. destruct (Z.ltb_spec (s - 1 + Z.of_nat (length w)) 0); [reflexivity|lia].
Qed.
(** C150: the same set twice is refused with a ValueError, as if it were other data of the same time. *)
Lemma C150_twice_refuted_proof : forall w before s after sort, holds w -> NoDup before -> (forall x, In x before -> 1 <= x <= Z.of_nat (length w)) -> In s before ->
  get_data_set w (before ++ s :: after) sort = (Raise ValueError, w).
Proof.
  intros w before s after sort H N R I. pose proof (C150_sets_proof w before H N R) as G. unfold get_data_set in *. rewrite pick_app. destruct (pick w [] before) as [p|e]; [|discriminate]. injection G as ->. cbn [bind pick]. specialize (R s I).
  destruct (Z.ltb_spec (s - 1) 0); [lia|]. destruct (Z.ltb_spec (s - 1) 0); [lia|]. destruct (nth_error w (Z.to_nat (s - 1))) as [d|] eqn:D; [|apply nth_error_None in D; lia].
  set (p := map (fun s => Z.to_nat (s - 1)) before). assert (X : existsb (fun e => Qeq_bool (jd d) (jd e)) (objs w p) = true).
  { apply existsb_exists. exists d. split; [|apply Qeq_bool_iff; reflexivity]. apply in_objs. exists (Z.to_nat (s - 1)). split; [|exact D]. apply in_map_iff. exists s. tauto. }
  unfold accept. rewrite X. reflexivity.
Qed.
(** Two sets, the later one first. *)
Lemma C149_example_proof : holds [ex_b; ex_a] /\ fits [ex_b] ex_a /\ add [ex_b; ex_a] ex_a = Raise ValueError.
Proof.
  split; [|split; [|reflexivity]].
  - apply (holds_add [ex_b] ex_a); [apply (holds_add [] ex_b); [constructor|discriminate|discriminate|reflexivity]|discriminate|discriminate|reflexivity].
  - intros e [<-|[]]. split; [discriminate|]. split; reflexivity.
Qed.
(** Both, sorted: by time, with their baselines in order in the writer too; one twice is a ValueError. *)
Lemma C150_example_proof : get_data_set [ex_b; ex_a] [1; 2] true = (Ok [1%nat; 0%nat], [mkD 2%Q [2; 3] 4%nat; mkD 1%Q [2; 3] 4%nat]) /\
  get_data_set [ex_b; ex_a] [2] true = (Ok [1%nat], [ex_b; mkD 1%Q [2; 3] 4%nat]) /\ get_data_set [ex_b; ex_a] [1; 1] false = (Raise ValueError, [ex_b; ex_a]) /\ ~ ascending (bls ex_a).
Proof. repeat split; try reflexivity. cbn. lia. Qed.
