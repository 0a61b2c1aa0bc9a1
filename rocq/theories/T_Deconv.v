(** Property theorems (generated from P_DeconvT.v by tools/gen_theorems.py). *)
From Coq Require Import List ZArith QArith Qround Qcanon Bool Lia.
From Verif Require Import LibList M_Py M_Num M_Base P_Base S_Corr P_Corr P_GridC P_Math M_Deconv S_Deconv P_Deconv P_DeconvM P_DeconvC P_DeconvL P_DeconvQ P_DeconvT.
Import ListNotations.
Open Scope Z_scope.

(** C95: the minor cycle takes components away from the image one after the other, each the share gain of the cell of greatest size with the beam moved there, until there
    are max_iter of them or the greatest is within two standard deviations of the mean; what it returns is what is left plus the flux of every component in its cell. *)
Theorem C95_minor : forall (H W : Z) (img beam : picture) (gain : Qc) (max_iter : Z), 0 < H -> 0 < W -> 0 <= max_iter ->
  exists out comps r, minor_cycle H W img beam gain max_iter = Ok out /\ cleaning H W gain beam img comps r /\ zlen comps <= max_iter /\
    (zlen comps = max_iter \/ exists p, first_greatest H W (fun c => square (r c)) p /\ quiet H W r p) /\
    forall d, inside H W d -> out d = (flux_in H W beam comps d + r d)%Qc.
Proof. exact C95_minor_proof. Qed.
Print Assumptions C95_minor.

Example C95_minor_example : shown (minor_cycle 3 3 spot blurred (Q2Qc (1 # 3)) 1) [(0, 0); (0, 1); (0, 2); (1, 1)] = [21 # 2; (-3) # 2; 0 # 1; 0 # 1]%Q.
Proof. exact C95_minor_example_proof. Qed.

(** C95: the flux of the image is kept whatever the beam, the gain and the number of turns. *)
Theorem C95_flux : forall (H W : Z) (img beam out : picture) (gain : Qc) (max_iter : Z), 0 < H -> 0 < W -> minor_cycle H W img beam gain max_iter = Ok out -> sum_over H W out = sum_over H W img.
Proof. exact C95_flux_proof. Qed.
Print Assumptions C95_flux.

(** C95: with a beam that is one in its middle and zero elsewhere the image comes back as it was. *)
Theorem C95_point_beam : forall (H W : Z) (img beam out : picture) (gain : Qc) (max_iter : Z), 0 < H -> 0 < W ->
  (forall d, inside H W d -> beam d = if (fst d =? H / 2) && (snd d =? W / 2) then 1%Qc else 0%Qc) ->
  minor_cycle H W img beam gain max_iter = Ok out -> forall d, inside H W d -> out d = img d.
Proof. exact C95_point_beam_proof. Qed.
Print Assumptions C95_point_beam.

Example C95_point_beam_example : exists beam, forall d, inside 4 5 d -> beam d = if (fst d =? 4 / 2) && (snd d =? 5 / 2) then 1%Qc else 0%Qc.
Proof. exact C95_point_beam_example_proof. Qed.

(** C95: an image without cells has no maximum: ValueError. *)
Theorem C95_empty : forall (H W : Z) (img beam : picture) (gain : Qc) (max_iter : Z), H <= 0 \/ W <= 0 -> 0 < max_iter -> minor_cycle H W img beam gain max_iter = Raise ValueError.
Proof. exact C95_empty_proof. Qed.
Print Assumptions C95_empty.

(** C96: a component between cells is shared by the four cells around it in proportion to the overlap; no share is negative, they add up to the flux, and their centre
    of gravity is the place of the component. *)
Theorem C96_shares : forall (H W : Z) (amount x y : Qc) (a : picture), between_cells H W x y ->
  (exists b, spread H W amount x y a = Ok b /\ forall d, b d = (a d + amount * overlap x y d)%Qc) /\
  sum_over H W (overlap x y) = 1%Qc /\ sum_over H W (fun d => num (fst d) * overlap x y d)%Qc = x /\ sum_over H W (fun d => num (snd d) * overlap x y d)%Qc = y /\ (forall d, (0 <= overlap x y d)%Qc).
Proof. exact C96_shares_proof. Qed.
Print Assumptions C96_shares.

Example C96_shares_example : between_cells 4 4 (Q2Qc (6 # 5)) (num 0).
Proof. exact C96_shares_example_proof. Qed.

(** C96: the values of the coordinates at a place between cells are interpolated linearly from the four around it. *)
Theorem C96_interpolated : forall (H W : Z) (a : picture) (x y : Qc), between_cells H W x y -> interpolate H W a x y = Some (bilinear H W a x y).
Proof. exact C96_interpolated_proof. Qed.
Print Assumptions C96_interpolated.

(** C96: whatever the fit finds at or right of the start of its cutout, when clean returns an image there is a list of points, at most max_iter, each the share gain of the
    brightest cell left, such that the array's responses to them have been taken away one after the other (beams are not computed twice, but are the right ones); it stopped at max_iter or because
    what is left is negative or below sigma times its deviation.  The result is the sum of what is left and of the points convolved with the restoring beam, scaled to the greatest value taken away. *)
Theorem C96_clean_partial : forall (H W : Z) (fit : picture -> Z -> Z -> Z -> Z -> Qc * Qc) (response : Qc -> Qc -> picture) (deviation : list Qc -> Qc) (convolve : picture -> picture)
  (mask : cell -> bool) (ra dec img : picture) (FWHM : Z) (gain sigma : Qc) (max_iter : Z) (out : cell -> option Qc),
  (forall a x0 x1 y0 y1, (0 <= fst (fit a x0 x1 y0 y1))%Qc /\ (0 <= snd (fit a x0 x1 y0 y1))%Qc) ->
  (forall a b, (forall d, a d = b d) -> forall d, convolve a d = convolve b d) ->
  0 <= FWHM / 2 -> 2 * (FWHM / 2) + 1 <= H -> 2 * (FWHM / 2) + 1 <= W -> 0 <= max_iter ->
  clean H W fit response deviation convolve mask ra dec FWHM gain sigma max_iter img = Ok out ->
  exists comps r, subtracting H W gain response ra dec img comps r /\ zlen comps <= max_iter /\
    (zlen comps = max_iter \/ exists p, first_greatest H W r p /\ ((r p < 0)%Qc \/ (r p < sigma * deviation (listed H W r))%Qc)) /\
    forall M m, greatest (inside H W) (fun c => (img c - r c)%Qc) M -> greatest (fun c => inside H W c /\ mask c = false) (convolve (placed comps)) m -> m <> 0%Qc ->
      forall c, inside H W c -> out c = if mask c then None else Some (convolve (placed comps) c * (M / m) + r c)%Qc.
Proof. exact C96_clean_partial_proof. Qed.
Print Assumptions C96_clean_partial.

Example C96_clean_example : shown_o (clean 2 2 no_fit (fun _ _ => unit_dot) (fun _ => 0%Qc) (fun a => a) (fun c => snd c =? 1) dot dot 1 (Q2Qc (1 # 2)) (num 3) 2 dot) [(0, 0); (1, 0); (0, 1)]
  = [Some (8 # 1); Some (0 # 1); None]%Q.
Proof. exact C96_clean_example_proof. Qed.

(** C96, finding: if the brightest cell is less than half a beam from the first row or column the cutout for the fit is empty (a negative start counts from the end) and clean fails with ValueError. *)
Theorem C96_edge_refuted : forall (H W : Z) (fit : picture -> Z -> Z -> Z -> Z -> Qc * Qc) (response : Qc -> Qc -> picture) (deviation : list Qc -> Qc) (convolve : picture -> picture)
  (mask : cell -> bool) (ra dec img : picture) (FWHM : Z) (gain sigma : Qc) (max_iter : Z) (p : cell),
  2 * (FWHM / 2) + 1 <= H -> 2 * (FWHM / 2) + 1 <= W -> first_greatest H W img p -> fst p < FWHM / 2 \/ snd p < FWHM / 2 -> 0 < max_iter ->
  clean H W fit response deviation convolve mask ra dec FWHM gain sigma max_iter img = Raise ValueError.
Proof. exact C96_edge_refuted_proof. Qed.
Print Assumptions C96_edge_refuted.

Example C96_edge_example : first_greatest 3 3 dot (0, 0) /\ fst (0, 0) < 3 / 2.
Proof. exact C96_edge_example_proof. Qed.

(** C96, finding: a component at a fraction before the first row loses flux: the shares are 1 + x and x. *)
Theorem C96_before_first_refuted : forall (x : Qc), (- (1) < x)%Qc -> (x < 0)%Qc -> py_int (this x) = 0 /\ side x 0 = (1 + x)%Qc /\ side x 1 = x /\ (side x 0 + side x 1)%Qc <> 1%Qc.
Proof. exact C96_before_first_refuted_proof. Qed.
Print Assumptions C96_before_first_refuted.

Example C96_before_first_example : (- (1) < Q2Qc ((-2) # 5))%Qc /\ (Q2Qc ((-2) # 5) < 0)%Qc.
Proof. exact C96_before_first_example_proof. Qed.

(** C96, finding: a component in the last row or column, even exactly on it, fails with IndexError. *)
Theorem C96_last_row_refuted : forall (H W : Z) (amount x y : Qc) (a : picture), (0 <= x)%Qc -> (0 <= y)%Qc -> (num (H - 1) <= x)%Qc \/ (num (W - 1) <= y)%Qc -> spread H W amount x y a = Raise IndexError.
Proof. exact C96_last_row_refuted_proof. Qed.
Print Assumptions C96_last_row_refuted.

Example C96_last_row_example : (0 <= num 3)%Qc /\ (num (4 - 1) <= num 3)%Qc.
Proof. exact C96_last_row_example_proof. Qed.

(** C96, finding: if nothing is removed (a negative image, or max_iter 0) and the convolution of nothing is zero, not a single cell of the result is a number. *)
Theorem C96_nothing_refuted : forall (H W : Z) (fit : picture -> Z -> Z -> Z -> Z -> Qc * Qc) (response : Qc -> Qc -> picture) (deviation : list Qc -> Qc) (convolve : picture -> picture)
  (mask : cell -> bool) (ra dec img : picture) (FWHM : Z) (gain sigma : Qc) (max_iter : Z) (out : cell -> option Qc),
  (forall a, (forall d, a d = 0%Qc) -> forall d, convolve a d = 0%Qc) -> max_iter = 0 \/ (forall c, inside H W c -> (img c < 0)%Qc) ->
  clean H W fit response deviation convolve mask ra dec FWHM gain sigma max_iter img = Ok out -> forall c, out c = None.
Proof. exact C96_nothing_refuted_proof. Qed.
Print Assumptions C96_nothing_refuted.

Example C96_nothing_example : shown_o (clean 2 2 no_fit (fun _ _ => unit_dot) (fun _ => 0%Qc) (fun a => a) (fun _ => false) dot dot 1 (Q2Qc (1 # 2)) (num 3) 2 (fun c => num (- (1) - fst c))) [(0, 0); (1, 0); (0, 1)] = [None; None; None].
Proof. exact C96_nothing_example_proof. Qed.

(** C97: the course of the least squares fit.  There is a number n of turns that improve, each lowering the deviation by rtol at least, after which it stops: at max_iter, because there
    is nothing to model, because it settles, or because it gets worse.  Except in the last case the result is the model of the last turn made, convolved, plus its residuals. *)
Theorem C97_course_partial : forall (H W : Z) (fails : picture -> bool) (sim tidy : picture -> picture) (deviation : list Qc -> Qc) (convolve : picture -> picture) (beamClean : picture) (mask : cell -> bool)
  (img : picture) (gain rtol simToModel modelToSim : Qc) (max_iter : Z) (m : Qc),
  (forall d, minor_cycle H W d beamClean (Q2Qc (1 # 10)) 2000 = Ok (tidy d)) -> greatest (inside H W) img m -> gain <> 0%Qc -> 0 < max_iter ->
  exists m0 first n, (forall c, m0 c = without_negative (level mask m modelToSim) c) /\ first = (deviation (listed H W (fun c => img c - level mask m modelToSim c)%Qc) * num 1000000)%Qc /\
    let model := model sim tidy img m0 gain simToModel in let residual := residual sim tidy img m0 gain simToModel in
    let result := fun k => Ok (fun c => if mask c then None else Some (convolve (fun c => model k c * modelToSim)%Qc c + residual k c)%Qc) in
    let run := lsq H W (fun m => if fails m then None else Some (sim m)) deviation convolve beamClean mask img gain rtol simToModel modelToSim max_iter in
    (forall j, (j < n)%nat -> fails (model j) = false /\ improves H W sim tidy deviation img m0 gain simToModel first rtol j) /\ Z.of_nat n <= max_iter /\
    ((Z.of_nat n = max_iter /\ run = result (n - 1)%nat)
     \/ Z.of_nat n < max_iter /\ fails (model n) = true /\ run = (if (n =? 0)%nat then Raise NameError else result (n - 1)%nat)
     \/ Z.of_nat n < max_iter /\ fails (model n) = false /\ settles H W sim tidy deviation img m0 gain simToModel first rtol n /\ run = result n
     \/ Z.of_nat n < max_iter /\ fails (model n) = false /\ worsens H W sim tidy deviation img m0 gain simToModel first n /\
        exists d, (forall c, n = 0%nat -> d c = 0%Qc) /\ (n <> 0%nat -> d = residual (n - 1)%nat) /\ run = Ok (fun c => if mask c then None else Some (convolve (fun c => model n c * modelToSim)%Qc c + d c)%Qc)).
Proof. exact C97_course_partial_proof. Qed.
Print Assumptions C97_course_partial.

Example C97_course_example : exists tidy, forall d, minor_cycle 2 2 d unit_dot (Q2Qc (1 # 10)) 2000 = Ok (tidy d).
Proof. exact C97_course_example_proof. Qed.

(** C97: no model of the fit is negative anywhere. *)
Theorem C97_not_negative : forall (sim tidy : picture -> picture) (img start : picture) (gain simToModel : Qc) (k : nat) (c : cell), (0 <= model sim tidy img (without_negative start) gain simToModel k c)%Qc.
Proof. exact C97_not_negative_proof. Qed.
Print Assumptions C97_not_negative.

(** C97: turns that improve are few: after the first, n of them lower the deviation by n times rtol. *)
Theorem C97_turns : forall (H W : Z) (sim tidy : picture -> picture) (deviation : list Qc -> Qc) (img m0 : picture) (gain simToModel first rtol : Qc) (n : nat), (0 <= rtol)%Qc -> (forall l, (0 <= deviation l)%Qc) ->
  (forall j, (j < n)%nat -> improves H W sim tidy deviation img m0 gain simToModel first rtol j) -> (num (Z.of_nat n - 1) * rtol <= rms H W sim tidy deviation img m0 gain simToModel 0)%Qc.
Proof. exact C97_turns_proof. Qed.
Print Assumptions C97_turns.

Example C97_turns_example : improves 2 2 thrice (fun d => d) sizes dot eight 1 1 (num 1000) (num 1) 0 /\ improves 2 2 thrice (fun d => d) sizes dot eight 1 1 (num 1000) (num 1) 1.
Proof. exact C97_turns_example_proof. Qed.

(** C97, finding: when a turn makes it worse the code says it goes back to the turn before, but it only takes that turn's residuals, with the model of the worse turn: here turn 2 is worse than turn 1, and the result is
    neither the sum of model and residuals of turn 1 (8) nor that of turn 2 (-8). *)
Theorem C97_worse_refuted : worsens 2 2 thrice (fun d => d) sizes dot eight 1 1 (num 1000) 2 /\
  shown_o (lsq 2 2 (fun m => Some (thrice m)) sizes (fun a => a) unit_dot (fun _ => false) dot 1 (num 1) 1 1 10) [(0, 0)] = [Some (16 # 1)]%Q /\
  map (fun k => this (Qcplus (model thrice (fun d => d) dot eight 1 1 k (0, 0)) (residual thrice (fun d => d) dot eight 1 1 k (0, 0)))) [1; 2]%nat = [8 # 1; (-8) # 1]%Q.
Proof. exact C97_worse_refuted_proof. Qed.
Print Assumptions C97_worse_refuted.

(** C97, finding: without a turn, or if there is nothing to simulate in the first, the fit ends in a NameError. *)
Theorem C97_no_turn_refuted : forall (H W : Z) (simulate : picture -> option picture) (deviation : list Qc -> Qc) (convolve : picture -> picture) (beamClean : picture) (mask : cell -> bool)
  (img : picture) (gain rtol simToModel modelToSim : Qc) (max_iter : Z), 0 < H -> 0 < W -> max_iter <= 0 \/ (forall m, simulate m = None) ->
  lsq H W simulate deviation convolve beamClean mask img gain rtol simToModel modelToSim max_iter = Raise NameError.
Proof. exact C97_no_turn_refuted_proof. Qed.
Print Assumptions C97_no_turn_refuted.

Example C97_no_turn_example : forall m : picture, (fun _ : picture => @None picture) m = None.
Proof. exact C97_no_turn_example_proof. Qed.
