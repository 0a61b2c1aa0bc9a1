(** Property theorems (generated from P_MathT.v by tools/gen_theorems.py). *)
From Coq Require Import String List ZArith Lia QArith Qcanon Bool.
From Verif Require Import LibList M_Py M_Base M_Math S_Corr S_Math P_Base P_Corr P_Beam P_CorrFX P_CorrPsd P_Math P_MathS P_MathT.
Import ListNotations.
Open Scope Z_scope.

(** C89: downsample() by a positive factor returns, for each complete run of that many consecutive numbers, its mean or its sum; what is left
    over at the end is dropped. *)
Theorem C89_downsample : forall (vector : list Qc) factor (rescale : bool), 0 < factor ->
  downsample vector factor rescale =
    Ok (map (fun i => (total (run factor i vector) / (if rescale then num factor else 1))%Qc) (upto 0 (zlen vector / factor))).
Proof. exact C89_downsample_proof. Qed.
Print Assumptions C89_downsample.

Example C89_downsample_example : downsample (nums [1; 2; 3; 4; 5; 6; 7; 8]) 3 true = Ok (nums [2; 5]) /\
  downsample (nums [1; 2; 3; 4; 5; 6; 7; 8]) 3 false = Ok (nums [6; 15]).
Proof. exact C89_downsample_example_proof. Qed.

(** C89: a factor of zero is a ZeroDivisionError. *)
Theorem C89_downsample_zero : forall vector rescale, downsample vector 0 rescale = Raise ZeroDivisionError.
Proof. exact C89_downsample_zero_proof. Qed.
Print Assumptions C89_downsample_zero.

(** C89: regrid() with linear interpolation of data in increasing order, asked for points within them, returns for each the value on the line that joins the
    data. *)
Theorem C89_regrid : forall x y newx, increasing x -> zlen x = zlen y -> x <> [] -> newx <> [] ->
  (forall v, In v newx -> (at_ x 0 <= v)%Qc /\ (v <= at_ x (zlen x - 1))%Qc) ->
  exists r, regrid_linear x y newx = Ok r /\ Forall2 (joined x y) newx r.
Proof. exact C89_regrid_proof. Qed.
Print Assumptions C89_regrid.

(** C89: hence the data themselves at their own points, and what lies on a straight line stays on it. *)
Theorem C89_regrid_exact : forall x y newx r i, increasing x -> zlen x = zlen y -> x <> [] -> newx <> [] ->
  (forall v, In v newx -> (at_ x 0 <= v)%Qc /\ (v <= at_ x (zlen x - 1))%Qc) ->
  regrid_linear x y newx = Ok r -> 0 <= i < zlen newx ->
  (forall k, 0 <= k < zlen x -> at_ newx i = at_ x k -> at_ r i = at_ y k) /\
  (forall a b, (forall k, 0 <= k < zlen x -> at_ y k = (a + b * at_ x k)%Qc) -> at_ r i = (a + b * at_ newx i)%Qc).
Proof. exact C89_regrid_exact_proof. Qed.
Print Assumptions C89_regrid_exact.

Example C89_regrid_example : increasing four_x /\
  (forall v, In v (nums [2; 1; 10; 5]) -> (at_ four_x 0 <= v)%Qc /\ (v <= at_ four_x 3)%Qc) /\
  regrid_linear four_x (nums [5; 7; 3; 17]) (nums [2; 1; 10; 5]) = Ok (nums [5; 7; 17; 7]).
Proof. exact C89_regrid_example_proof. Qed.

(** C89: a point outside of the data is a ValueError. *)
Theorem C89_regrid_outside : forall x y newx v, increasing x -> x <> [] -> In v newx -> (v < at_ x 0)%Qc \/ (at_ x (zlen x - 1) < v)%Qc ->
  regrid_linear x y newx = Raise ValueError.
Proof. exact C89_regrid_outside_proof. Qed.
Print Assumptions C89_regrid_outside.

Example C89_regrid_outside_example : increasing four_x /\ In (num 11) (nums [2; 11]) /\ (at_ four_x 3 < num 11)%Qc.
Proof. exact C89_regrid_outside_example_proof. Qed.

(** C89: smooth() of more numbers than the window is long returns as many numbers: each is the mean, with the weights of the window, of the numbers around
    its place, the signal being continued by its reflection at both ends. *)
Theorem C89_smooth : forall windows x wl window, 3 <= wl < zlen x -> In window ["flat"; "hanning"; "hamming"; "bartlett"; "blackman"]%string ->
  zlen (weights windows window wl) = wl ->
  smooth windows x wl window = Ok (map (weighted_mean (weights windows window wl) (reflected x)) (upto 0 (zlen x))).
Proof. exact C89_smooth_proof. Qed.
Print Assumptions C89_smooth.

Example C89_smooth_example : smooth (fun _ _ => []) (nums [3; 6; 9; 0; 3; 3]) 3 "flat" = Ok (nums [2; 6; 5; 4; 2; 3]).
Proof. exact C89_smooth_example_proof. Qed.

(** C89: away from the ends, where the window covers only the signal, that is the mean of the signal itself; *)
Theorem C89_smooth_middle : forall w x i, zlen w - 1 - (zlen w - 1) / 2 <= i -> i + (zlen w - 1) / 2 < zlen x ->
  weighted_mean w (reflected x) i = weighted_mean w (at_ x) i.
Proof. exact C89_smooth_middle_proof. Qed.
Print Assumptions C89_smooth_middle.

Theorem C89_smooth_linear : forall windows x y wl window rx ry a b, 3 <= wl < zlen x -> zlen y = zlen x -> zlen (weights windows window wl) = wl ->
  smooth windows x wl window = Ok rx -> smooth windows y wl window = Ok ry ->
  smooth windows (map (fun p => (a * fst p + b * snd p)%Qc) (combine x y)) wl window = Ok (map (fun p => (a * fst p + b * snd p)%Qc) (combine rx ry)).
Proof. exact C89_smooth_linear_proof. Qed.
Print Assumptions C89_smooth_linear.

(** C89: a constant signal stays what it is; *)
Theorem C89_smooth_constant : forall windows n c wl window, 3 <= wl < n -> In window ["flat"; "hanning"; "hamming"; "bartlett"; "blackman"]%string ->
  zlen (weights windows window wl) = wl -> total (weights windows window wl) <> 0%Qc ->
  smooth windows (repeat c (Z.to_nat n)) wl window = Ok (repeat c (Z.to_nat n)).
Proof. exact C89_smooth_constant_proof. Qed.
Print Assumptions C89_smooth_constant.

Example C89_smooth_constant_example : 3 <= 5 < 8 /\ In "flat"%string ["flat"; "hanning"; "hamming"; "bartlett"; "blackman"]%string /\
  zlen (weights (fun _ _ => []) "flat" 5) = 5 /\ total (weights (fun _ _ => []) "flat" 5) <> 0%Qc.
Proof. exact C89_smooth_constant_example_proof. Qed.

(** C89: a straight line is kept, away from the ends, by a window of odd length that is the same from both sides. *)
Theorem C89_smooth_line_partial : forall w x a b i, total w <> 0%Qc -> (forall j, 0 <= j < zlen w -> at_ w j = at_ w (zlen w - 1 - j)) -> Z.odd (zlen w) = true ->
  (forall k, 0 <= k < zlen x -> at_ x k = (a + b * num k)%Qc) -> (zlen w - 1) / 2 <= i -> i + (zlen w - 1) / 2 < zlen x ->
  weighted_mean w (reflected x) i = at_ x i.
Proof. exact C89_smooth_line_partial_proof. Qed.
Print Assumptions C89_smooth_line_partial.

Example C89_smooth_line_partial_example : let w := repeat 1%Qc 3 in total w <> 0%Qc /\ (forall j, 0 <= j < zlen w -> at_ w j = at_ w (zlen w - 1 - j)) /\ Z.odd (zlen w) = true.
Proof. exact C89_smooth_line_partial_example_proof. Qed.

(** C89 refuted: at the ends it is not: the straight line 0, 1, 2, ... starts with -1/3 instead of 0, because x[1] is left out of the reflection, and ends with 20/3 instead of 7. *)
Theorem C89_smooth_line_refuted : exists r, smooth (fun _ _ => []) (nums [0; 1; 2; 3; 4; 5; 6; 7]) 3 "flat" = Ok r /\
  at_ r 0 = Q2Qc (-1 # 3) /\ at_ r 7 = Q2Qc (20 # 3).
Proof. exact C89_smooth_line_refuted_proof. Qed.
Print Assumptions C89_smooth_line_refuted.

(** C89: fewer numbers than the window is long, or a window of another name, is a ValueError; a window shorter than 3 returns the signal. *)
Theorem C89_smooth_errors : forall windows x wl window,
  (zlen x < wl -> smooth windows x wl window = Raise ValueError) /\
  (wl < 3 -> wl <= zlen x -> smooth windows x wl window = Ok x) /\
  (3 <= wl <= zlen x -> ~ In window ["flat"; "hanning"; "hamming"; "bartlett"; "blackman"]%string -> smooth windows x wl window = Raise ValueError).
Proof. exact C89_smooth_errors_proof. Qed.
Print Assumptions C89_smooth_errors.

(** C89 refuted: for as many numbers as the window is long one number less is returned. *)
Theorem C89_smooth_equal_refuted : forall windows x wl window, 3 <= wl -> zlen x = wl -> In window ["flat"; "hanning"; "hamming"; "bartlett"; "blackman"]%string ->
  exists r, smooth windows x wl window = Ok r /\ zlen r = zlen x - 1.
Proof. exact C89_smooth_equal_refuted_proof. Qed.
Print Assumptions C89_smooth_equal_refuted.

Example C89_smooth_equal_example : 3 <= 3 /\ zlen (nums [1; 2; 3]) = 3.
Proof. exact C89_smooth_equal_example_proof. Qed.
