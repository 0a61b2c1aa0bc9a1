From Coq Require Import List ZArith Bool QArith Lia Lqa.
From Verif Require Import M_Py M_Find S_Find P_Find.
Import ListNotations.
Open Scope Z_scope.

(** C139: when the threshold is above the lowest value of the convolved image away from the edges, the sources found are, each once, the
    pixels at or above the threshold that no pixel of the detection area exceeds and whose sharpness and roundness are within the given
    bounds, with the value of the image and these statistics.  Pixels are taken as in the convolved image, whose computation, with that
    of the background, is not part of the model. *)
Lemma C139_sources_partial_proof : forall R C h radius2 conv image c1 threshold s_lo s_hi r_lo r_hi,
  0 <= h -> (exists i j, inside R C h i j /\ (conv i j < threshold)%Q) ->
  exists places sources, find_sources R C h radius2 conv image c1 threshold s_lo s_hi r_lo r_hi = Ok sources /\ NoDup places /\
    (forall i j, In (i, j) places <-> peak R C h radius2 conv threshold i j /\ acceptable h radius2 image c1 s_lo s_hi r_lo r_hi i j) /\
    Forall2 (fun p s => s_flux s = image (fst p) (snd p) /\ (s_sharp s == sharp_of h radius2 image (fst p) (snd p))%Q /\ (s_round s == round_of h image c1 (fst p) (snd p))%Q) places sources.
Proof.
  intros R C h radius2 conv image c1 threshold s_lo s_hi r_lo r_hi Hh E. destruct (find_spec R C h radius2 conv image c1 threshold s_lo s_hi r_lo r_hi Hh E) as (l & N & S & F).
  exists l, (map (stat h radius2 image c1) l). split; [exact F|]. split; [exact N|]. split; [exact S|]. apply forall2_map. intros [i j]. cbn [stat s_flux s_sharp s_round fst snd].
  split; [reflexivity|]. split; [apply sharp_eq|apply round_eq].
Qed.
(** C139: without that, pixels of the edge are detections and what lies beyond the edge is asked for: an image that is the same
    everywhere and not below the threshold gives an IndexError instead of sources. *)
Lemma C139_flat_image_refuted_proof : forall R C h radius2 v image c1 threshold s_lo s_hi r_lo r_hi,
  1 <= h -> 2 * h < R -> 2 * h < C -> (1 <= radius2)%Q -> (threshold <= v)%Q ->
  find_sources R C h radius2 (fun _ _ => v) image c1 threshold s_lo s_hi r_lo r_hi = Raise IndexError.
Proof.
  intros R C h radius2 v image c1 threshold s_lo s_hi r_lo r_hi Hh HR HC Hr Ht. unfold find_sources, detect.
  assert (M : min_conv R C h (fun _ _ => v) = Ok v).
  { destruct (min_exists R C h (fun _ _ => v) h h) as (m & M); [lia|unfold inside; lia|]. unfold min_conv in *. clear M. assert (G : forall x, In x (map (at_pixel (fun _ _ => v)) (filter (inner R C h) (pixels R C))) -> x = v) by (intros x X; apply in_map_iff in X; destruct X as (p & <- & _); reflexivity).
    assert (P : In v (map (at_pixel (fun _ _ => v)) (filter (inner R C h) (pixels R C)))).
    { apply in_map_iff. exists (h, h). split; [reflexivity|]. apply filter_In. split; [apply pixel_in; lia|apply inner_iff; unfold inside; lia]. }
    destruct (map _ _) as [|x r]; [contradiction|]. apply (f_equal Ok). rewrite (G x (or_introl eq_refl)). assert (Gr : forall y, In y r -> y = v) by (intros y Y; apply G; right; exact Y). clear G P.
    unfold qmin. induction r as [|y r IH]; [reflexivity|]. cbn [fold_left]. rewrite (Gr y (or_introl eq_refl)). replace (Qle_bool v v) with true by (symmetry; apply Qle_bool_iff; lra). apply IH. intros; apply Gr; right; assumption. }
  rewrite M. cbn [bind]. assert (A : forall p, cleaned R C h (fun _ _ => v) v p = v) by (intro p; unfold cleaned, at_pixel; destruct (inner R C h p); reflexivity).
  rewrite flat_raises; [reflexivity|intros; apply A|intros; apply A|]. exists (R - 1), 0, 1, 0. split; [|split; [|lia]].
  - apply filter_In. split; [apply pixel_in; lia|]. rewrite A. apply Qle_bool_iff. exact Ht.
  - apply offsets_in; [lia|]. split; [congruence|]. split; [lia|]. split; [lia|]. exact Hr.
Qed.
(** C139: an image too small to have pixels away from its edges is a ValueError. *)
Lemma C139_small_image_proof : forall R C h radius2 conv image c1 threshold s_lo s_hi r_lo r_hi,
  R <= 2 * h \/ C <= 2 * h -> find_sources R C h radius2 conv image c1 threshold s_lo s_hi r_lo r_hi = Raise ValueError.
Proof.
  intros R C h radius2 conv image c1 threshold s_lo s_hi r_lo r_hi H. unfold find_sources, detect, min_conv. assert (E : filter (inner R C h) (pixels R C) = []).
  { destruct (filter (inner R C h) (pixels R C)) as [|[i j] r] eqn:F; [reflexivity|]. exfalso. assert (I : In (i, j) (filter (inner R C h) (pixels R C))) by (rewrite F; left; reflexivity). apply filter_In in I. destruct I as [_ I]. apply inner_iff in I. unfold inside in I. lia. }
  rewrite E. reflexivity.
Qed.
Lemma C139_small_image_example_proof : find_sources 4 9 2 4 ex_image ex_image ex_c1 4 (1 # 5) 1 (- (1)) 1 = Raise ValueError.
Proof. vm_compute. reflexivity. Qed.
(** An image with a peak and a shoulder: one source. *)
Lemma C139_example_proof : (exists i j, inside 9 9 2 i j /\ (ex_image i j < 4)%Q) /\ peak 9 9 2 4 ex_image 4 4 4 /\
  match find_sources 9 9 2 4 ex_image ex_image ex_c1 4 (1 # 5) 1 (- (1)) 1 with Ok l => map s_flux l = [10%Q] | Raise _ => False end /\
  find_sources 9 9 2 4 (fun _ _ => 1%Q) ex_image ex_c1 1 (1 # 5) 1 (- (1)) 1 = Raise IndexError.
Proof.
  split; [exists 2, 2; split; [unfold inside; lia|reflexivity]|]. split; [|split; vm_compute; reflexivity].
  split; [unfold inside; lia|]. split; [vm_compute; discriminate|]. intros i j _ _. unfold ex_image. destruct ((i =? 4) && (j =? 4)); [vm_compute; discriminate|]. destruct ((i =? 4) && (j =? 5)); vm_compute; discriminate.
Qed.

(** C140: the position of a source is not the intensity-weighted center of its box: the offsets along the two axes are exchanged, so
    that the position is wrong whenever they differ. *)
Lemma C140_center_refuted_proof : forall R C h radius2 conv image c1 threshold s_lo s_hi r_lo r_hi,
  0 <= h -> (exists i j, inside R C h i j /\ (conv i j < threshold)%Q) ->
  exists places sources, find_sources R C h radius2 conv image c1 threshold s_lo s_hi r_lo r_hi = Ok sources /\
    (forall i j, In (i, j) places <-> peak R C h radius2 conv threshold i j /\ acceptable h radius2 image c1 s_lo s_hi r_lo r_hi i j) /\
    Forall2 (fun p s => forall x y, center h image (fst p) (snd p) x y ->
      (s_x s == inject_Z (fst p) + (y - inject_Z (snd p)) /\ s_y s == inject_Z (snd p) + (x - inject_Z (fst p)))%Q /\
      (~ x - inject_Z (fst p) == y - inject_Z (snd p) -> ~ s_x s == x /\ ~ s_y s == y)%Q) places sources.
Proof.
  intros R C h radius2 conv image c1 threshold s_lo s_hi r_lo r_hi Hh E. destruct (find_spec R C h radius2 conv image c1 threshold s_lo s_hi r_lo r_hi Hh E) as (l & N & S & F).
  exists l, (map (stat h radius2 image c1) l). split; [exact F|]. split; [exact S|]. apply forall2_map. intros [i j]. cbn [stat s_x s_y fst snd]. intros x y [X Y].
  assert (G : (xcen h image (i, j) == inject_Z i + (y - inject_Z j) /\ ycen h image (i, j) == inject_Z j + (x - inject_Z i))%Q).
  { unfold xcen, ycen. rewrite !over_box_sum. cbn [fst snd]. rewrite X, Y. cbv zeta beta. split; ring. }
  split; [exact G|]. destruct G as [G1 G2]. intro D. rewrite G1, G2. split; intro K; apply D; lra.
Qed.
(** C140: the position is right where the offsets along the two axes agree, as for an image that is the same on both sides of the
    diagonal through the peak. *)
Lemma C140_center_partial_proof : forall h image i j, (forall a b, image (i + a)%Z (j + b)%Z == image (i + b)%Z (j + a)%Z)%Q ->
  center h image i j (xcen h image (i, j)) (ycen h image (i, j)).
Proof.
  intros h image i j E. unfold center, xcen, ycen. cbv zeta. rewrite !over_box_sum. cbn [fst snd].
  assert (Sw : forall n m a b f, (sum_from a n (fun x => sum_from b m (fun y => f x y)) == sum_from b m (fun y => sum_from a n (fun x => f x y)))%Q).
  { induction n as [|n IH]; intros m a b f; cbn [sum_from].
    - clear. revert b. induction m as [|m IH]; intro b; cbn [sum_from]; [reflexivity|]. rewrite <- IH. lra.
    - rewrite IH. clear. revert b. induction m as [|m IHm]; intro b; cbn [sum_from]; [lra|]. rewrite <- IHm. cbn [sum_from]. lra. }
  assert (K : (box_sum h (fun a b => image (i + a)%Z (j + b)%Z * inject_Z b) == box_sum h (fun a b => image (i + a)%Z (j + b)%Z * inject_Z a))%Q).
  { unfold box_sum. rewrite Sw. apply sum_ext. intro b. apply sum_ext. intro a. rewrite (E a b). reflexivity. }
  rewrite K. split; reflexivity.
Qed.
(** The peak with a shoulder along the second axis is reported off its place along the first. *)
Lemma C140_example_proof : center 2 ex_image 4 4 4 (13 # 3) /\
  match find_sources 9 9 2 4 ex_image ex_image ex_c1 4 (1 # 5) 1 (- (1)) 1 with Ok [s] => (s_x s == 13 # 3 /\ s_y s == 4)%Q | _ => False end /\
  center 2 (fun i j => if (i =? 3) && (j =? 3) then 2%Q else 0%Q) 2 2 3 3.
Proof.
  split; [split; vm_compute; reflexivity|]. split; [vm_compute; split; reflexivity|]. split; vm_compute; reflexivity.
Qed.
