From Coq Require Import List ZArith Bool QArith Lia Lqa.
From Verif Require Import M_Num P_Num M_Medf S_Medf P_Medf.
Import ListNotations.
Open Scope Z_scope.

(** C151: a tile that is not at a corner of the image and whose neighbours are all at one level is at that level after the filter,
    whatever its own value is, so that a single anomalous tile is removed. *)
Lemma C151_level_partial_proof : forall nX nY fill basis c i j, 2 <= nX -> 2 <= nY -> tile nX nY i j -> ~ corner nX nY i j ->
  (forall i' j', tile nX nY i' j' -> next_to i j i' j' -> (i', j') <> (i, j) -> basis i' j' = Some c) -> (filtered nX nY fill basis i j == c)%Q.
Proof.
  intros nX nY fill basis c i j HX HY T N H. unfold filtered. apply majority; [reflexivity|].
  assert (K : forall a b, Z.abs a <= 1 -> Z.abs b <= 1 -> (a <> 0 \/ b <> 0) -> tile nX nY (i + a) (j + b) -> Qeq_bool (padded nX nY fill basis (i + a) (j + b)) c = true).
  { intros a b A B O Ti. rewrite padded_in by exact Ti. unfold filled. rewrite H; [apply Qeq_bool_iff; reflexivity|exact Ti|unfold next_to; lia|intro E; injection E; lia]. }
  unfold tally, nine. cbn [flat_map map app filter]. unfold tile in *. unfold corner in N.
  assert (E : (0 < i < nX - 1 /\ 0 < j < nY - 1) \/ (i = 0 /\ 0 < j < nY - 1) \/ (i = nX - 1 /\ i <> 0 /\ 0 < j < nY - 1) \/ (0 < i < nX - 1 /\ j = 0) \/ (0 < i < nX - 1 /\ j = nY - 1 /\ j <> 0)) by lia.
  destruct E as [E|[E|[E|[E|E]]]]; repeat match goal with |- context [Qeq_bool (padded nX nY fill basis (i + ?a) (j + ?b)) c] => first [rewrite (K a b) by lia|destruct (Qeq_bool (padded nX nY fill basis (i + a) (j + b)) c)] end; cbn [length]; lia.
Qed.
(** C151: away from the edges the filter stays within the range of the tile and its neighbours. *)
Lemma C151_range_partial_proof : forall nX nY fill basis lo hi i j, 0 < i < nX - 1 -> 0 < j < nY - 1 ->
  (forall i' j', next_to i j i' j' -> exists v, basis i' j' = Some v /\ (lo <= v <= hi)%Q) -> (lo <= filtered nX nY fill basis i j <= hi)%Q.
Proof.
  intros nX nY fill basis lo hi i j HI HJ H. unfold filtered. destruct (median_spec (nine nX nY fill basis i j) eq_refl) as [A B]. set (v := nth 4 (sort_q (nine nX nY fill basis i j)) 0%Q) in *.
  assert (R : forall x, In x (nine nX nY fill basis i j) -> (lo <= x <= hi)%Q).
  { intros x X. unfold nine in X. apply in_flat_map in X. destruct X as (a & Ia & X). apply in_map_iff in X. destruct X as (b & <- & Ib). assert (Z.abs a <= 1) by (cbn in Ia; lia). assert (Z.abs b <= 1) by (cbn in Ib; lia).
    rewrite padded_in by (unfold tile; lia). unfold filled. destruct (H (i + a) (j + b)) as (w & -> & W); [unfold next_to; lia|exact W]. }
  clearbody v. split.
  - destruct (tally_meet (fun x => Qle_bool x v) (fun _ => true) (nine nX nY fill basis i j)) as (x & X & E & _); [change (tally (fun _ => true) (nine nX nY fill basis i j)) with 9%nat; change (length (nine nX nY fill basis i j)) with 9%nat; lia|]. apply Qle_bool_iff in E. specialize (R x X). lra.
  - destruct (tally_meet (fun x => Qle_bool v x) (fun _ => true) (nine nX nY fill basis i j)) as (x & X & E & _); [change (tally (fun _ => true) (nine nX nY fill basis i j)) with 9%nat; change (length (nine nX nY fill basis i j)) with 9%nat; lia|]. apply Qle_bool_iff in E. specialize (R x X). lra.
Qed.
(** C151: at the corners of the image the background is zero, whatever the values of the tiles are: five of the nine values are outside. *)
Lemma C151_corner_refuted_proof : forall nX nY fill basis i j, 2 <= nX -> 2 <= nY -> corner nX nY i j -> (filtered nX nY fill basis i j == 0)%Q.
Proof.
  intros nX nY fill basis i j HX HY N. unfold filtered. apply majority; [reflexivity|].
  assert (K : forall a b, ~ tile nX nY (i + a) (j + b) -> Qeq_bool (padded nX nY fill basis (i + a) (j + b)) 0 = true) by (intros a b T; rewrite padded_out by exact T; reflexivity).
  unfold tally, nine. cbn [flat_map map app filter]. unfold corner in N. unfold tile in K.
  destruct N as [[E|E] [F|F]]; repeat match goal with |- context [Qeq_bool (padded nX nY fill basis (i + ?a) (j + ?b)) 0] => first [rewrite (K a b) by lia|destruct (Qeq_bool (padded nX nY fill basis (i + a) (j + b)) 0)] end; cbn [length]; lia.
Qed.
(** Three by three tiles at level 5 with one at 100 in the middle, and one without a value. *)
Lemma C151_example_proof : let f := filtered 3 3 5 (fun i j => if (i =? 1) && (j =? 1) then Some 100%Q else if (i =? 2) && (j =? 1) then None else Some 5%Q) in
  map (fun i => map (f i) [0; 1; 2]) [0; 1; 2] = [[0%Q; 5%Q; 0%Q]; [5%Q; 5%Q; 5%Q]; [0%Q; 5%Q; 0%Q]] /\ ~ corner 3 3 1 1 /\ corner 3 3 2 0.
Proof. split; [vm_compute; reflexivity|]. unfold corner. lia. Qed.
