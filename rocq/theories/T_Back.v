(** Property theorems (generated from P_BackT.v by tools/gen_theorems.py). *)
From Coq Require Import List ZArith Bool QArith Lia Lqa.
From Verif Require Import M_Py M_Num P_Num M_Back S_Back P_Back P_BackT.
Import ListNotations.
Open Scope Z_scope.

(** C147: the tiles along an axis follow each other without a gap and without overlap, each is half a window wide, give or take half a
    pixel, its center is taken to within a quarter of a pixel, and at most half a window of pixels at the end of the axis are in none. *)
Theorem C147_tiles_partial : forall n window t, 0 <= n -> 0 < window -> tiles n window = Ok t ->
  (forall i, 0 <= i < t -> tile_to n window i = tile_from window (i + 1) /\ window - 1 <= 2 * (tile_to n window i - tile_from window i) <= window + 1 /\
     (- (1 # 4) <= tile_center window i - (inject_Z (tile_from window i) + inject_Z (tile_to n window i)) / 2 <= 1 # 4)%Q) /\
  tile_from window 0 = 0 /\ 0 <= n - tile_from window t < window /\ 2 * (n - tile_from window t) <= window.
Proof. exact C147_tiles_partial_proof. Qed.
Print Assumptions C147_tiles_partial.

(** C147: so with a window of two or more pixels no tile is a window wide, and none overlaps the next. *)
Theorem C147_overlap_refuted : forall n window t i, 0 <= n -> 2 <= window -> tiles n window = Ok t -> 0 <= i < t ->
  tile_to n window i - tile_from window i < window /\ ~ exists x, tile_from window i <= x < tile_to n window i /\ tile_from window (i + 1) <= x.
Proof. exact C147_overlap_refuted_proof. Qed.
Print Assumptions C147_overlap_refuted.

(** An axis of 100 pixels and a window of 15: 13 tiles, of 7 or 8 pixels, and 3 pixels left. *)
Example C147_example : tiles 100 15 = Ok 13 /\ map (fun i => tile_to 100 15 i - tile_from 15 i) [0; 1; 2; 12] = [7; 8; 7; 7] /\ 100 - tile_from 15 13 = 3 /\ tiles 100 0 = Raise ZeroDivisionError.
Proof. exact C147_example_proof. Qed.

(** C148: a tile whose pixels are not all alike has a value, from the pixels less than three standard deviations from the mean, which are
    not none: when this changes the deviation by at most a fifth, it is their mean, which is within the range of the tile, and otherwise
    2.5 times their median less 1.5 times their mean. *)
Theorem C148_value_partial : forall median l, l <> [] -> ~ constant l ->
  exists keep v, (exists f, keep = filter f l) /\ (forall x, In x keep <-> In x l /\ near l x) /\ keep <> [] /\ basis median l = Some v /\
    (empty_field l keep -> (v == avg keep)%Q /\ forall lo hi, between lo hi l -> (lo <= v <= hi)%Q) /\
    (~ empty_field l keep -> (v == (5 # 2) * median keep - (3 # 2) * avg keep)%Q).
Proof. exact C148_value_partial_proof. Qed.
Print Assumptions C148_value_partial.

(** C148: a tile whose pixels are all alike, as in an empty part of an image, has none: nothing is less than three times zero from the
    mean. *)
Theorem C148_constant_refuted : forall median l, constant l -> basis median l = None.
Proof. exact C148_constant_refuted_proof. Qed.
Print Assumptions C148_constant_refuted.

(** Four pixels, and four that are alike. *)
Example C148_example : match basis (fun _ => 0%Q) [1%Q; 2%Q; 3%Q; 4%Q] with Some v => (v == 5 # 2)%Q | None => False end /\ basis (fun _ => 7%Q) [7%Q; 7%Q; 7%Q; 7%Q] = None /\
  match basis (fun _ => 1%Q) (100%Q :: repeat 0%Q 10) with Some v => (v == 5 # 2)%Q | None => False end.
Proof. exact C148_example_proof. Qed.
