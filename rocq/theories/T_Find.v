(** Property theorems (generated from P_FindT.v by tools/gen_theorems.py). *)
From Coq Require Import List ZArith Bool QArith Lia Lqa.
From Verif Require Import M_Py M_Find S_Find P_Find P_FindT.
Import ListNotations.
Open Scope Z_scope.

(** C139: when the threshold is above the lowest value of the convolved image away from the edges, the sources found are, each once, the
    pixels at or above the threshold that no pixel of the detection area exceeds and whose sharpness and roundness are within the given
    bounds, with the value of the image and these statistics.  Pixels are taken as in the convolved image, whose computation, with that
    of the background, is not part of the model. *)
Theorem C139_sources_partial : forall R C h radius2 conv image c1 threshold s_lo s_hi r_lo r_hi,
  0 <= h -> (exists i j, inside R C h i j /\ (conv i j < threshold)%Q) ->
  exists places sources, find_sources R C h radius2 conv image c1 threshold s_lo s_hi r_lo r_hi = Ok sources /\ NoDup places /\
    (forall i j, In (i, j) places <-> peak R C h radius2 conv threshold i j /\ acceptable h radius2 image c1 s_lo s_hi r_lo r_hi i j) /\
    Forall2 (fun p s => s_flux s = image (fst p) (snd p) /\ (s_sharp s == sharp_of h radius2 image (fst p) (snd p))%Q /\ (s_round s == round_of h image c1 (fst p) (snd p))%Q) places sources.
Proof. exact C139_sources_partial_proof. Qed.
Print Assumptions C139_sources_partial.

(** C139: without that, pixels of the edge are detections and what lies beyond the edge is asked for: an image that is the same
    everywhere and not below the threshold gives an IndexError instead of sources. *)
Theorem C139_flat_image_refuted : forall R C h radius2 v image c1 threshold s_lo s_hi r_lo r_hi,
  1 <= h -> 2 * h < R -> 2 * h < C -> (1 <= radius2)%Q -> (threshold <= v)%Q ->
  find_sources R C h radius2 (fun _ _ => v) image c1 threshold s_lo s_hi r_lo r_hi = Raise IndexError.
Proof. exact C139_flat_image_refuted_proof. Qed.
Print Assumptions C139_flat_image_refuted.

(** C139: an image too small to have pixels away from its edges is a ValueError. *)
Theorem C139_small_image : forall R C h radius2 conv image c1 threshold s_lo s_hi r_lo r_hi,
  R <= 2 * h \/ C <= 2 * h -> find_sources R C h radius2 conv image c1 threshold s_lo s_hi r_lo r_hi = Raise ValueError.
Proof. exact C139_small_image_proof. Qed.
Print Assumptions C139_small_image.

Example C139_small_image_example : find_sources 4 9 2 4 ex_image ex_image ex_c1 4 (1 # 5) 1 (- (1)) 1 = Raise ValueError.
Proof. exact C139_small_image_example_proof. Qed.

(** An image with a peak and a shoulder: one source. *)
Example C139_example : (exists i j, inside 9 9 2 i j /\ (ex_image i j < 4)%Q) /\ peak 9 9 2 4 ex_image 4 4 4 /\
  match find_sources 9 9 2 4 ex_image ex_image ex_c1 4 (1 # 5) 1 (- (1)) 1 with Ok l => map s_flux l = [10%Q] | Raise _ => False end /\
  find_sources 9 9 2 4 (fun _ _ => 1%Q) ex_image ex_c1 1 (1 # 5) 1 (- (1)) 1 = Raise IndexError.
Proof. exact C139_example_proof. Qed.

(** C140: the position of a source is not the intensity-weighted center of its box: the offsets along the two axes are exchanged, so
    that the position is wrong whenever they differ. *)
Theorem C140_center_refuted : forall R C h radius2 conv image c1 threshold s_lo s_hi r_lo r_hi,
  0 <= h -> (exists i j, inside R C h i j /\ (conv i j < threshold)%Q) ->
  exists places sources, find_sources R C h radius2 conv image c1 threshold s_lo s_hi r_lo r_hi = Ok sources /\
    (forall i j, In (i, j) places <-> peak R C h radius2 conv threshold i j /\ acceptable h radius2 image c1 s_lo s_hi r_lo r_hi i j) /\
    Forall2 (fun p s => forall x y, center h image (fst p) (snd p) x y ->
      (s_x s == inject_Z (fst p) + (y - inject_Z (snd p)) /\ s_y s == inject_Z (snd p) + (x - inject_Z (fst p)))%Q /\
      (~ x - inject_Z (fst p) == y - inject_Z (snd p) -> ~ s_x s == x /\ ~ s_y s == y)%Q) places sources.
Proof. exact C140_center_refuted_proof. Qed.
Print Assumptions C140_center_refuted.

(** C140: the position is right where the offsets along the two axes agree, as for an image that is the same on both sides of the
    diagonal through the peak. *)
Theorem C140_center_partial : forall h image i j, (forall a b, image (i + a)%Z (j + b)%Z == image (i + b)%Z (j + a)%Z)%Q ->
  center h image i j (xcen h image (i, j)) (ycen h image (i, j)).
Proof. exact C140_center_partial_proof. Qed.
Print Assumptions C140_center_partial.

(** The peak with a shoulder along the second axis is reported off its place along the first. *)
Example C140_example : center 2 ex_image 4 4 4 (13 # 3) /\
  match find_sources 9 9 2 4 ex_image ex_image ex_c1 4 (1 # 5) 1 (- (1)) 1 with Ok [s] => (s_x s == 13 # 3 /\ s_y s == 4)%Q | _ => False end /\
  center 2 (fun i j => if (i =? 3) && (j =? 3) then 2%Q else 0%Q) 2 2 3 3.
Proof. exact C140_example_proof. Qed.
