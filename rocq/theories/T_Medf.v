(** Property theorems (generated from P_MedfT.v by tools/gen_theorems.py). *)
From Coq Require Import List ZArith Bool QArith Lia Lqa.
From Verif Require Import M_Num P_Num M_Medf S_Medf P_Medf P_MedfT.
Import ListNotations.
Open Scope Z_scope.

(** C151: a tile that is not at a corner of the image and whose neighbours are all at one level is at that level after the filter,
    whatever its own value is, so that a single anomalous tile is removed. *)
Theorem C151_level_partial : forall nX nY fill basis c i j, 2 <= nX -> 2 <= nY -> tile nX nY i j -> ~ corner nX nY i j ->
  (forall i' j', tile nX nY i' j' -> next_to i j i' j' -> (i', j') <> (i, j) -> basis i' j' = Some c) -> (filtered nX nY fill basis i j == c)%Q.
Proof. exact C151_level_partial_proof. Qed.
Print Assumptions C151_level_partial.

(** C151: away from the edges the filter stays within the range of the tile and its neighbours. *)
Theorem C151_range_partial : forall nX nY fill basis lo hi i j, 0 < i < nX - 1 -> 0 < j < nY - 1 ->
  (forall i' j', next_to i j i' j' -> exists v, basis i' j' = Some v /\ (lo <= v <= hi)%Q) -> (lo <= filtered nX nY fill basis i j <= hi)%Q.
Proof. exact C151_range_partial_proof. Qed.
Print Assumptions C151_range_partial.

(** C151: at the corners of the image the background is zero, whatever the values of the tiles are: five of the nine values are outside. *)
Theorem C151_corner_refuted : forall nX nY fill basis i j, 2 <= nX -> 2 <= nY -> corner nX nY i j -> (filtered nX nY fill basis i j == 0)%Q.
Proof. exact C151_corner_refuted_proof. Qed.
Print Assumptions C151_corner_refuted.

(** Three by three tiles at level 5 with one at 100 in the middle, and one without a value. *)
Example C151_example : let f := filtered 3 3 5 (fun i j => if (i =? 1) && (j =? 1) then Some 100%Q else if (i =? 2) && (j =? 1) then None else Some 5%Q) in
  map (fun i => map (f i) [0; 1; 2]) [0; 1; 2] = [[0%Q; 5%Q; 0%Q]; [5%Q; 5%Q; 5%Q]; [0%Q; 5%Q; 0%Q]] /\ ~ corner 3 3 1 1 /\ corner 3 3 2 0.
Proof. exact C151_example_proof. Qed.
