From Coq Require Import List ZArith QArith Qround Qcanon Bool Lia.
From Verif Require Import LibList M_Py M_Num M_Base P_Base S_Corr P_Corr P_GridC P_Math M_Deconv S_Deconv P_Deconv P_DeconvM P_DeconvC P_DeconvL P_DeconvQ.
Import ListNotations.
Open Scope Z_scope.

(** C95: the minor cycle takes components away from the image one after the other, each the share gain of the cell of greatest size with the beam moved there, until there
    are max_iter of them or the greatest is within two standard deviations of the mean; what it returns is what is left plus the flux of every component in its cell. *)
Lemma C95_minor_proof : forall (H W : Z) (img beam : picture) (gain : Qc) (max_iter : Z), 0 < H -> 0 < W -> 0 <= max_iter ->
  exists out comps r, minor_cycle H W img beam gain max_iter = Ok out /\ cleaning H W gain beam img comps r /\ zlen comps <= max_iter /\
    (zlen comps = max_iter \/ exists p, first_greatest H W (fun c => square (r c)) p /\ quiet H W r p) /\
    forall d, inside H W d -> out d = (flux_in H W beam comps d + r d)%Qc.
Proof.
  intros H W img beam gain max_iter HH HW HM. unfold minor_cycle.
  destruct (minor_loop_ok H W HH HW gain beam img (Z.to_nat max_iter) [] (fun c => (img c * 0)%Qc) (fun c => (img c * 1)%Qc)) as [out [comps [r [E [C [L [D F]]]]]]].
  - constructor. intros d _. ring.
  - intros d _. unfold flux_in. cbn [filter map total]. ring.
  - exists out, comps, r. split; [exact E|]. split; [exact C|]. unfold zlen. split; [lia|]. split; [|exact F]. destruct D as [D|D]; [left; lia|right; exact D].
Qed.
Definition spot : picture := fun c => if (fst c =? 0) && (snd c =? 0) then num 9 else 0%Qc.
Definition blurred : picture := fun c => if (fst c =? 1) && (snd c =? 1) then num 1 else if (fst c =? 1) && (snd c =? 2) then Q2Qc (1 # 2) else 0%Qc.
Definition shown (r : res picture) (l : list cell) : list Q := match r with Ok a => map (fun c => this (a c)) l | Raise _ => [] end.
Lemma C95_minor_example_proof : shown (minor_cycle 3 3 spot blurred (Q2Qc (1 # 3)) 1) [(0, 0); (0, 1); (0, 2); (1, 1)] = [21 # 2; (-3) # 2; 0 # 1; 0 # 1]%Q.
Proof. vm_compute. reflexivity. Qed.
(** C95: the flux of the image is kept whatever the beam, the gain and the number of turns. *)
Lemma C95_flux_proof : forall (H W : Z) (img beam out : picture) (gain : Qc) (max_iter : Z), 0 < H -> 0 < W -> minor_cycle H W img beam gain max_iter = Ok out -> sum_over H W out = sum_over H W img.
Proof.
  intros H W img beam out gain max_iter HH HW E. unfold minor_cycle in E. apply minor_sum in E. rewrite E.
  rewrite (sum_over_ext H W (fun c => img c * 0)%Qc (fun c => 0 * img c)%Qc), (sum_over_ext H W (fun c => img c * 1)%Qc img) by (intros; ring). rewrite sum_over_scale. ring.
Qed.
(** C95: with a beam that is one in its middle and zero elsewhere the image comes back as it was. *)
Lemma C95_point_beam_proof : forall (H W : Z) (img beam out : picture) (gain : Qc) (max_iter : Z), 0 < H -> 0 < W ->
  (forall d, inside H W d -> beam d = if (fst d =? H / 2) && (snd d =? W / 2) then 1%Qc else 0%Qc) ->
  minor_cycle H W img beam gain max_iter = Ok out -> forall d, inside H W d -> out d = img d.
Proof.
  intros H W img beam out gain max_iter HH HW HB E. unfold minor_cycle in E.
  assert (M2 : 0 <= H / 2 < H /\ 0 <= W / 2 < W) by (split; (split; [apply Z.div_pos; lia|apply Z.div_lt; lia])).
  assert (SB : sum_over H W beam = 1%Qc).
  { rewrite (sum_over_ext H W beam (fun d => if (H / 2 =? fst d) && (W / 2 =? snd d) then 1%Qc else 0%Qc)) by (intros d Hd; rewrite HB, (Z.eqb_sym (fst d)), (Z.eqb_sym (snd d)) by exact Hd; reflexivity).
    unfold sum_over. rewrite !upto_range. cbn [fst snd]. transitivity (total (map (fun x => if H / 2 =? x then 1%Qc else 0%Qc) (range 0 H))); [|apply total_single; lia].
    apply total_ext. intros x _. destruct (H / 2 =? x); cbn [andb]; [apply total_single; lia|apply total_zero; reflexivity]. }
  assert (G : forall n cleaned working out, minor_loop H W n gain beam cleaned working = Ok out -> forall d, inside H W d -> out d = (cleaned d + working d)%Qc).
  { clear E out. induction n as [|n IH]; intros cleaned working out E d Hd; cbn [minor_loop] in E; [injection E as <-; reflexivity|].
    destruct (peak_of H W (fun c => qabs (working c))) as [p|] eqn:P; [|discriminate]. destruct (quiet_at H W working p); [injection E as <-; reflexivity|].
    cbn zeta in E. rewrite (IH _ _ _ E d Hd). rewrite (removed_sum H W gain beam working p), SB, roll_centred. apply peak_first in P. destruct P as [[I1 I2] _]. destruct Hd as [D1 D2].
    unfold centred. rewrite HB by (split; cbn [fst snd]; apply Z.mod_pos_bound; lia). cbn [fst snd]. unfold add_at, same_cell.
    assert (K : forall n x y, 0 < n -> 0 <= x < n -> 0 <= y < n -> ((x - y + n / 2) mod n =? n / 2) = (y =? x)).
    { clear. intros n x y N Hx Hy. assert (M : 0 <= n / 2 < n) by (split; [apply Z.div_pos; lia|apply Z.div_lt; lia]). destruct (Z.eqb_spec y x) as [->|NE].
      - rewrite Z.sub_diag, Z.add_0_l, Z.mod_small by lia. apply Z.eqb_refl.
      - apply Z.eqb_neq. intro E. apply NE. assert (Q : (x - y) mod n = 0).
        { replace (x - y) with (x - y + n / 2 - n / 2) by lia. rewrite Zminus_mod, E, (Z.mod_small (n / 2)) by lia. rewrite Z.sub_diag. apply Z.mod_0_l. lia. }
        apply Z.mod_divide in Q; [|lia]. destruct Q as [k Q]. assert (k = 0) by nia. lia. }
    rewrite !K by lia. destruct ((fst p =? fst d) && (snd p =? snd d)); ring. }
  intros d Hd. rewrite (G _ _ _ _ E d Hd). ring.
Qed.
Lemma C95_point_beam_example_proof : exists beam, forall d, inside 4 5 d -> beam d = if (fst d =? 4 / 2) && (snd d =? 5 / 2) then 1%Qc else 0%Qc.
Proof. exists (fun d => if (fst d =? 2) && (snd d =? 2) then 1%Qc else 0%Qc). reflexivity. Qed.
(** C95: an image without cells has no maximum: ValueError. *)
Lemma C95_empty_proof : forall (H W : Z) (img beam : picture) (gain : Qc) (max_iter : Z), H <= 0 \/ W <= 0 -> 0 < max_iter -> minor_cycle H W img beam gain max_iter = Raise ValueError.
Proof.
  intros H W img beam gain max_iter D L. unfold minor_cycle. destruct (Z.to_nat max_iter) eqn:E; [lia|]. cbn [minor_loop]. rewrite peak_none by exact D. reflexivity.
Qed.

(** C96: a component between cells is shared by the four cells around it in proportion to the overlap; no share is negative, they add up to the flux, and their centre
    of gravity is the place of the component. *)
Lemma C96_shares_proof : forall (H W : Z) (amount x y : Qc) (a : picture), between_cells H W x y ->
  (exists b, spread H W amount x y a = Ok b /\ forall d, b d = (a d + amount * overlap x y d)%Qc) /\
  sum_over H W (overlap x y) = 1%Qc /\ sum_over H W (fun d => num (fst d) * overlap x y d)%Qc = x /\ sum_over H W (fun d => num (snd d) * overlap x y d)%Qc = y /\ (forall d, (0 <= overlap x y d)%Qc).
Proof.
  intros H W amount x y a B. split; [apply spread_ok, B|]. destruct (overlap_sum H W x y B) as [S1 [S2 S3]]. split; [exact S1|]. split; [exact S2|]. split; [exact S3|]. intro d.
  assert (T : forall t, (0 <= tent t)%Qc).
  { intro t. unfold tent. destruct (Qclt_le_dec t 0); [destruct (Qclt_le_dec (1 + t) 0)|destruct (Qclt_le_dec (1 - t) 0)]; try apply Qcle_refl; assumption. }
  unfold overlap. replace 0%Qc with (0 * tent (num (snd d) - y))%Qc by ring. apply Qcmult_le_compat_r; apply T.
Qed.
Lemma C96_shares_example_proof : between_cells 4 4 (Q2Qc (6 # 5)) (num 0).
Proof. repeat split; try (intro E; discriminate E); reflexivity. Qed.
(** C96: the values of the coordinates at a place between cells are interpolated linearly from the four around it. *)
Lemma C96_interpolated_proof : forall (H W : Z) (a : picture) (x y : Qc), between_cells H W x y -> interpolate H W a x y = Some (bilinear H W a x y).
Proof. intros H W a x y B. apply interpolate_ok, B. Qed.
(** C96: whatever the fit finds at or right of the start of its cutout, when clean returns an image there is a list of points, at most max_iter, each the share gain of the
    brightest cell left, such that the array's responses to them have been taken away one after the other (beams are not computed twice, but are the right ones); it stopped at max_iter or because
    what is left is negative or below sigma times its deviation.  The result is the sum of what is left and of the points convolved with the restoring beam, scaled to the greatest value taken away. *)
Lemma C96_clean_partial_proof : forall (H W : Z) (fit : picture -> Z -> Z -> Z -> Z -> Qc * Qc) (response : Qc -> Qc -> picture) (deviation : list Qc -> Qc) (convolve : picture -> picture)
  (mask : cell -> bool) (ra dec img : picture) (FWHM : Z) (gain sigma : Qc) (max_iter : Z) (out : cell -> option Qc),
  (forall a x0 x1 y0 y1, (0 <= fst (fit a x0 x1 y0 y1))%Qc /\ (0 <= snd (fit a x0 x1 y0 y1))%Qc) ->
  (forall a b, (forall d, a d = b d) -> forall d, convolve a d = convolve b d) ->
  0 <= FWHM / 2 -> 2 * (FWHM / 2) + 1 <= H -> 2 * (FWHM / 2) + 1 <= W -> 0 <= max_iter ->
  clean H W fit response deviation convolve mask ra dec FWHM gain sigma max_iter img = Ok out ->
  exists comps r, subtracting H W gain response ra dec img comps r /\ zlen comps <= max_iter /\
    (zlen comps = max_iter \/ exists p, first_greatest H W r p /\ ((r p < 0)%Qc \/ (r p < sigma * deviation (listed H W r))%Qc)) /\
    forall M m, greatest (inside H W) (fun c => (img c - r c)%Qc) M -> greatest (fun c => inside H W c /\ mask c = false) (convolve (placed comps)) m -> m <> 0%Qc ->
      forall c, inside H W c -> out c = if mask c then None else Some (convolve (placed comps) c * (M / m) + r c)%Qc.
Proof.
  intros H W fit response deviation convolve mask ra dec img FWHM gain sigma max_iter out HF HC W1 W2 W3 HM E. unfold clean in E.
  destruct (clean_loop _ _ _ _ _ _ _ _ _ _ _ _) as [s|e] eqn:L; [|discriminate]. cbn [bind] in E. injection E as <-.
  destruct (loop_ok H W fit response deviation ra dec img FWHM gain sigma HF (conj W1 (conj W2 W3)) (Z.to_nat max_iter) [] (mkC (fun _ => 0%Qc) (fun c => (0 + img c)%Qc) []) s) as [comps [[G1 [G2 _]] [LN D]]].
  { split; [|split]; cbn [c_working c_cleaned c_beams].
    - constructor. intros d _. ring.
    - intro d. reflexivity.
    - intros k b []. }
  { exact L. }
  cbn [app] in *. exists comps, (c_working s). split; [exact G1|]. unfold zlen. split; [lia|]. split; [destruct D as [D|D]; [left; lia|right; exact D]|].
  intros M m GM Gm NZ c Hc. unfold restored.
  assert (Gm' : greatest (fun c => inside H W c /\ negb (mask c) = true) (convolve (c_cleaned s)) m).
  { destruct Gm as [[c0 [[I0 K0] E0]] Gm]. split.
    - exists c0. rewrite K0. split; [auto|]. rewrite <- E0. apply HC, G2.
    - intros d [Hd Kd]. rewrite (HC _ _ G2). apply Gm. split; [exact Hd|]. destruct (mask d); [discriminate|reflexivity]. }
  destruct (imax (map (convolve (c_cleaned s)) (filter (fun c => negb (mask c)) (cells H W)))) as [m'|] eqn:M1.
  2:{ exfalso. destruct Gm' as [[c0 [[I0 K0] _]] _]. assert (IN : In c0 (filter (fun c => negb (mask c)) (cells H W))) by (apply filter_In; split; [apply cells_in, I0|exact K0]).
      destruct (filter (fun c => negb (mask c)) (cells H W)); [destruct IN|discriminate]. }
  rewrite <- (greatest_imax _ _ _ _ _ _ Gm' M1).
  destruct (imax (values H W (fun c => (img c - c_working s c)%Qc))) as [M'|] eqn:M2.
  2:{ exfalso. apply cells_in in Hc. unfold values in M2. destruct (cells H W); [destruct Hc|discriminate]. }
  rewrite <- (greatest_values _ _ _ _ _ GM M2). destruct (mask c); [reflexivity|]. destruct (Qc_eq_bool m 0) eqn:T; [apply qc_eq_bool_true in T; congruence|].
  rewrite (HC _ _ G2). reflexivity.
Qed.
Definition dot : picture := fun c => if (fst c =? 0) && (snd c =? 0) then num 8 else 0%Qc.
Definition unit_dot : picture := fun c => if (fst c =? 0) && (snd c =? 0) then num 1 else 0%Qc.
Definition no_fit (a : picture) (x0 x1 y0 y1 : Z) : Qc * Qc := (0%Qc, 0%Qc).
Definition shown_o (r : res (cell -> option Qc)) (l : list cell) : list (option Q) := match r with Ok a => map (fun c => option_map this (a c)) l | Raise _ => [] end.
Lemma C96_clean_example_proof : shown_o (clean 2 2 no_fit (fun _ _ => unit_dot) (fun _ => 0%Qc) (fun a => a) (fun c => snd c =? 1) dot dot 1 (Q2Qc (1 # 2)) (num 3) 2 dot) [(0, 0); (1, 0); (0, 1)]
  = [Some (8 # 1); Some (0 # 1); None]%Q.
Proof. vm_compute. reflexivity. Qed.
(** C96, finding: if the brightest cell is less than half a beam from the first row or column the cutout for the fit is empty (a negative start counts from the end) and clean fails with ValueError. *)
Lemma C96_edge_refuted_proof : forall (H W : Z) (fit : picture -> Z -> Z -> Z -> Z -> Qc * Qc) (response : Qc -> Qc -> picture) (deviation : list Qc -> Qc) (convolve : picture -> picture)
  (mask : cell -> bool) (ra dec img : picture) (FWHM : Z) (gain sigma : Qc) (max_iter : Z) (p : cell),
  2 * (FWHM / 2) + 1 <= H -> 2 * (FWHM / 2) + 1 <= W -> first_greatest H W img p -> fst p < FWHM / 2 \/ snd p < FWHM / 2 -> 0 < max_iter ->
  clean H W fit response deviation convolve mask ra dec FWHM gain sigma max_iter img = Raise ValueError.
Proof.
  intros H W fit response deviation convolve mask ra dec img FWHM gain sigma max_iter p W2 W3 G D HM. unfold clean. destruct (Z.to_nat max_iter) eqn:EN; [lia|]. cbn [clean_loop]. unfold clean_step. cbn [c_working].
  pose proof (proj1 G) as I. assert (HH : 0 < H /\ 0 < W) by (destruct I; lia). destruct (peak_found H W (fun c => (0 + img c)%Qc) ltac:(lia) ltac:(lia)) as [q Q]. rewrite Q. apply peak_first in Q.
  assert (EQ : q = p).
  { destruct Q as [Iq Q], G as [Ip G]. destruct q as [q1 q2], p as [p1 p2].
    assert (T : before (q1, q2) (p1, p2) \/ before (p1, p2) (q1, q2) \/ (q1, q2) = (p1, p2)).
    { unfold before. cbn [fst snd]. destruct (Z.lt_trichotomy q1 p1) as [L|[->|L]]; [auto|destruct (Z.lt_trichotomy q2 p2) as [L|[->|L]]; auto|auto]. }
    destruct T as [T|[T|T]]; [| |exact T]; exfalso.
    - destruct (G _ Iq) as [_ L]. specialize (L T). destruct (Q _ Ip) as [L2 _]. apply (Qclt_not_le _ _ L). replace (img (p1, p2)) with (0 + img (p1, p2))%Qc by ring. replace (img (q1, q2)) with (0 + img (q1, q2))%Qc by ring. exact L2.
    - destruct (Q _ Ip) as [_ L]. specialize (L T). destruct (G _ Iq) as [L2 _]. apply (Qclt_not_le _ _ L). replace (0 + img (p1, p2))%Qc with (img (p1, p2)) by ring. replace (0 + img (q1, q2))%Qc with (img (q1, q2)) by ring. exact L2. }
  subst q. rewrite (position_edge H W fit FWHM); [reflexivity| |exact I|exact D]. split; [|split; assumption]. destruct I, D; lia.
Qed.
Lemma C96_edge_example_proof : first_greatest 3 3 dot (0, 0) /\ fst (0, 0) < 3 / 2.
Proof.
  split; [|reflexivity]. split; [unfold inside; cbn; lia|]. intros [a b] [I1 I2]. cbn [fst snd] in *. unfold dot, before. cbn [fst snd]. split; [|lia].
  destruct ((a =? 0) && (b =? 0)); [apply Qcle_refl|intro E; discriminate E].
Qed.
(** C96, finding: a component at a fraction before the first row loses flux: the shares are 1 + x and x. *)
Lemma C96_before_first_refuted_proof : forall (x : Qc), (- (1) < x)%Qc -> (x < 0)%Qc -> py_int (this x) = 0 /\ side x 0 = (1 + x)%Qc /\ side x 1 = x /\ (side x 0 + side x 1)%Qc <> 1%Qc.
Proof.
  intros x L1 L2.
  assert (S0 : side x 0 = (1 + x)%Qc).
  { unfold side. change (qz 0) with 0%Qc. rewrite (proj2 (qlt_iff x 0) L2). rewrite <- half_two. ring. }
  assert (S1 : side x 1 = x).
  { unfold side. change (qz 1) with 1%Qc. assert (L3 : (x < 1)%Qc) by (apply (Qclt_trans _ 0%Qc); [exact L2|reflexivity]). rewrite (proj2 (qlt_iff x 1) L3). replace (x + half - (1 - half))%Qc with (x + ((half + half) - 1))%Qc by ring. rewrite half_two. ring. }
  assert (FL : (0 <= - x)%Qc) by (apply Qclt_le_weak in L2; apply Qcopp_le_compat in L2; replace (- 0)%Qc with 0%Qc in L2 by ring; exact L2).
  assert (LT : (- x < 1)%Qc).
  { apply Qcnot_le_lt. intro K. apply Qcopp_le_compat in K. replace (- - x)%Qc with x in K by ring. apply (Qclt_not_le _ _ L1 K). }
  split; [|split; [exact S0|split; [exact S1|]]].
  - unfold py_int. destruct (Qle_bool 0 (this x)) eqn:T; [apply Qle_bool_iff in T; exfalso; apply (Qclt_not_le _ _ L2 T)|].
    destruct (py_int_pos (- x)%Qc FL) as [B1 [B2 B3]]. assert (EQ : Qfloor (- this x) = py_int (this (- x)%Qc)).
    { unfold py_int. rewrite (proj2 (Qle_bool_iff 0 (this (- x)%Qc)) FL). apply Qfloor_comp. unfold Qcopp, Q2Qc. cbn [this]. symmetry. apply Qred_correct. }
    rewrite EQ. assert (K : (num (py_int (this (- x)%Qc)) < num 1)%Qc) by (eapply Qcle_lt_trans; [exact B1|exact LT]). destruct (Z.lt_ge_cases (py_int (this (- x)%Qc)) 1) as [L|L]; [lia|]. exfalso. apply (Qclt_not_le _ _ K). apply num_le. lia.
  - rewrite S0, S1. intro E. assert (K : (x + x)%Qc = 0%Qc) by (replace (x + x)%Qc with (1 + x + x - 1)%Qc by ring; rewrite E; ring).
    apply (Qclt_not_le _ _ L2). replace x with (x + x + - x)%Qc by ring. rewrite K. replace (0 + - x)%Qc with (- x)%Qc by ring. exact FL.
Qed.
Lemma C96_before_first_example_proof : (- (1) < Q2Qc ((-2) # 5))%Qc /\ (Q2Qc ((-2) # 5) < 0)%Qc.
Proof. split; reflexivity. Qed.
(** C96, finding: a component in the last row or column, even exactly on it, fails with IndexError. *)
Lemma C96_last_row_refuted_proof : forall (H W : Z) (amount x y : Qc) (a : picture), (0 <= x)%Qc -> (0 <= y)%Qc -> (num (H - 1) <= x)%Qc \/ (num (W - 1) <= y)%Qc -> spread H W amount x y a = Raise IndexError.
Proof.
  intros H W amount x y a Px Py D. destruct (spread H W amount x y a) as [b|e] eqn:E.
  - exfalso. destruct (spread_between _ _ _ _ _ _ _ Px Py E) as [_ [A [_ B]]]. destruct D as [D|D]; [apply (Qclt_not_le _ _ A D)|apply (Qclt_not_le _ _ B D)].
  - assert (G : forall l r, (r = Raise IndexError \/ exists b, r = Ok b) -> match fold_left (fun r lm => bind r (fun a => add_index H W (fst lm) (snd lm) (side x (fst lm) * side y (snd lm) * amount)%Qc a)) l r with Ok _ => True | Raise e => e = IndexError end).
    { clear. induction l as [|lm l IH]; intros r Hr; cbn [fold_left]; [destruct Hr as [->|[b ->]]; auto|]. apply IH. destruct Hr as [->|[b ->]]; [left; reflexivity|]. cbn [bind]. unfold add_index.
      destruct (index H (fst lm)); [|left; reflexivity]. destruct (index W (snd lm)); [right; eexists; reflexivity|left; reflexivity]. }
    unfold spread in E. match type of E with fold_left _ ?l _ = _ => specialize (G l (Ok a) (or_intror (ex_intro _ a eq_refl))) end. rewrite E in G. rewrite G. reflexivity.
Qed.
Lemma C96_last_row_example_proof : (0 <= num 3)%Qc /\ (num (4 - 1) <= num 3)%Qc.
Proof. split; intro E; discriminate E. Qed.
(** C96, finding: if nothing is removed (a negative image, or max_iter 0) and the convolution of nothing is zero, not a single cell of the result is a number. *)
Lemma C96_nothing_refuted_proof : forall (H W : Z) (fit : picture -> Z -> Z -> Z -> Z -> Qc * Qc) (response : Qc -> Qc -> picture) (deviation : list Qc -> Qc) (convolve : picture -> picture)
  (mask : cell -> bool) (ra dec img : picture) (FWHM : Z) (gain sigma : Qc) (max_iter : Z) (out : cell -> option Qc),
  (forall a, (forall d, a d = 0%Qc) -> forall d, convolve a d = 0%Qc) -> max_iter = 0 \/ (forall c, inside H W c -> (img c < 0)%Qc) ->
  clean H W fit response deviation convolve mask ra dec FWHM gain sigma max_iter img = Ok out -> forall c, out c = None.
Proof.
  intros H W fit response deviation convolve mask ra dec img FWHM gain sigma max_iter out HC D E c. unfold clean in E.
  assert (R : forall conv r, (forall d, conv d = 0%Qc) -> restored H W mask conv img r c = None).
  { intros conv r Z0. unfold restored. destruct (imax (map conv _)) as [m|] eqn:M; [|reflexivity]. destruct (imax (values H W _)); [|reflexivity]. destruct (mask c); [reflexivity|].
    apply imax_spec in M. destruct M as [M _]. apply in_map_iff in M. destruct M as [d [<- _]]. rewrite Z0. reflexivity. }
  destruct (Z.to_nat max_iter) as [|n] eqn:EN.
  - cbn [clean_loop bind] in E. injection E as <-. apply R. cbn [c_cleaned]. apply HC. reflexivity.
  - destruct D as [D|D]; [subst; discriminate|]. cbn [clean_loop] in E. unfold clean_step in E. cbn [c_working] in E.
    destruct (peak_of H W (fun c => (0 + img c)%Qc)) as [p|] eqn:P; [|discriminate]. apply peak_first in P. destruct (position H W fit FWHM (fun c => (0 + img c)%Qc) p) as [[x y]|]; [|discriminate].
    assert (N : qlt (0 + img p)%Qc 0 = true) by (apply qlt_iff; replace (0 + img p)%Qc with (img p) by ring; apply D, P). rewrite N in E. cbn [bind] in E. injection E as <-. apply R. cbn [c_cleaned]. apply HC. reflexivity.
Qed.
Lemma C96_nothing_example_proof : shown_o (clean 2 2 no_fit (fun _ _ => unit_dot) (fun _ => 0%Qc) (fun a => a) (fun _ => false) dot dot 1 (Q2Qc (1 # 2)) (num 3) 2 (fun c => num (- (1) - fst c))) [(0, 0); (1, 0); (0, 1)] = [None; None; None].
Proof. vm_compute. reflexivity. Qed.

(** C97: the course of the least squares fit.  There is a number n of turns that improve, each lowering the deviation by rtol at least, after which it stops: at max_iter, because there
    is nothing to model, because it settles, or because it gets worse.  Except in the last case the result is the model of the last turn made, convolved, plus its residuals. *)
Lemma C97_course_partial_proof : forall (H W : Z) (fails : picture -> bool) (sim tidy : picture -> picture) (deviation : list Qc -> Qc) (convolve : picture -> picture) (beamClean : picture) (mask : cell -> bool)
  (img : picture) (gain rtol simToModel modelToSim : Qc) (max_iter : Z) (m : Qc),
  (forall d, minor_cycle H W d beamClean (Q2Qc (1 # 10)) 2000 = Ok (tidy d)) -> greatest (inside H W) img m -> gain <> 0%Qc -> 0 < max_iter ->
  exists m0 first n, (forall c, m0 c = without_negative (level mask m modelToSim) c) /\ first = (deviation (listed H W (fun c => img c - level mask m modelToSim c)%Qc) * num 1000000)%Qc /\
    let model := model sim tidy img m0 gain simToModel in let residual := residual sim tidy img m0 gain simToModel in
    let result := fun k => Ok (fun c => if mask c then None else Some (convolve (fun c => model k c * modelToSim)%Qc c + residual k c)%Qc) in
    let run := lsq H W (fun m => if fails m then None else Some (sim m)) deviation convolve beamClean mask img gain rtol simToModel modelToSim max_iter in
    (forall j, (j < n)%nat -> fails (model j) = false /\ improves H W sim tidy deviation img m0 gain simToModel first rtol j) /\ Z.of_nat n <= max_iter /\
    ((Z.of_nat n = max_iter /\ run = result (n - 1)%nat)
     \/ Z.of_nat n < max_iter /\ fails (model n) = true /\ run = (if (n =? 0)%nat then Raise NameError else result (n - 1)%nat)
     \/ Z.of_nat n < max_iter /\ fails (model n) = false /\ settles H W sim tidy deviation img m0 gain simToModel first rtol n /\ run = result n
     \/ Z.of_nat n < max_iter /\ fails (model n) = false /\ worsens H W sim tidy deviation img m0 gain simToModel first n /\
        exists d, (forall c, n = 0%nat -> d c = 0%Qc) /\ (n <> 0%nat -> d = residual (n - 1)%nat) /\ run = Ok (fun c => if mask c then None else Some (convolve (fun c => model n c * modelToSim)%Qc c + d c)%Qc)).
Proof.
  intros H W fails sim tidy deviation convolve beamClean mask img gain rtol simToModel modelToSim max_iter m HT HG Hg HM.
  set (s0 := lsq_start H W deviation mask img gain modelToSim m).
  set (m0 := clip (fun c => (l_heap s0 0 c + l_scaled s0 c * gain)%Qc)).
  destruct (loop_outcome H W fails sim tidy deviation convolve beamClean img gain rtol simToModel modelToSim HT m0 (l_oldRMS s0) (Z.to_nat max_iter) 0 s0) as [s [n [E [O1 [O2 O3]]]]].
  { repeat split; reflexivity. }
  assert (LV : forall c, first_model mask img modelToSim m c = level mask m modelToSim c).
  { intro c. unfold first_model, level. replace (img c * 0 + m)%Qc with m by ring. destruct (mask c); [reflexivity|].
    destruct (Qclt_le_dec m 0) as [L|L]; [rewrite (proj2 (qlt_iff m 0) L); reflexivity|rewrite (proj2 (qlt_false m 0) L); reflexivity]. }
  exists m0, (l_oldRMS s0), n. split.
  { intro c. unfold m0, clip, without_negative. cbn [s0 lsq_start l_heap l_scaled].
    assert (EQ : forall A B : Qc, A = B -> (if Qle_bool A 0 then 0%Qc else A) = (if Qle_bool B 0 then 0%Qc else B)) by (intros A B ->; reflexivity).
    apply EQ. rewrite LV. field. exact Hg. }
  split.
  { cbn [s0 lsq_start l_oldRMS]. rewrite <- values_listed. unfold values. change (qz 1000000) with (num 1000000). f_equal. f_equal. apply map_ext. intro c. rewrite LV. reflexivity. }
  cbn zeta. cbn [Nat.add] in *. split; [exact O1|]. split; [lia|].
  assert (RUN : forall d m2, l_diff s = d -> l_mdl2 s = Some m2 -> lsq H W (fun m => if fails m then None else Some (sim m)) deviation convolve beamClean mask img gain rtol simToModel modelToSim max_iter
     = Ok (fun c => if mask c then None else Some (convolve m2 c + d c)%Qc)).
  { intros d m2 <- E2. unfold lsq. destruct (imax (values H W img)) as [m'|] eqn:M; [|exfalso; destruct HG as [[c [I _]] _]; apply cells_in in I; unfold values in M; destruct (cells H W); [destruct I|discriminate]].
    rewrite <- (greatest_values _ _ _ _ _ HG M). fold s0. rewrite E. cbn [bind]. rewrite (proj2 (Z.leb_gt max_iter 0)) by lia. rewrite E2. reflexivity. }
  destruct O3 as [[P [Q1 Q2]]|[[P [F [Q1 Q2]]]|[P [F [Q2 Q1]]]]].
  - left. split; [lia|]. destruct n as [|n]; [lia|]. cbn [Nat.sub]. rewrite Nat.sub_0_r. apply RUN; assumption.
  - right. left. split; [lia|]. split; [exact F|]. destruct n as [|n].
    + cbn [Nat.eqb]. unfold lsq. destruct (imax (values H W img)) as [m'|] eqn:M; [|exfalso; destruct HG as [[c [I _]] _]; apply cells_in in I; unfold values in M; destruct (cells H W); [destruct I|discriminate]].
      rewrite <- (greatest_values _ _ _ _ _ HG M). fold s0. rewrite E. cbn [bind]. rewrite (proj2 (Z.leb_gt max_iter 0)) by lia. rewrite Q2. reflexivity.
    + cbn [Nat.eqb Nat.sub]. rewrite Nat.sub_0_r. apply RUN; assumption.
  - right. right. destruct Q1 as [[S Q1]|[S Q1]].
    + left. split; [lia|]. split; [exact F|]. split; [exact S|]. apply RUN; assumption.
    + right. split; [lia|]. split; [exact F|]. split; [exact S|]. exists (l_diff s). split; [|split].
      * intros c ->. rewrite Q1. cbn [s0 lsq_start l_oldDiff]. ring.
      * intro NZ. destruct n as [|n]; [congruence|]. cbn [Nat.sub]. rewrite Nat.sub_0_r. exact Q1.
      * apply RUN; [reflexivity|exact Q2].
Qed.
Lemma C97_course_example_proof : exists tidy, forall d, minor_cycle 2 2 d unit_dot (Q2Qc (1 # 10)) 2000 = Ok (tidy d).
Proof.
  exists (fun d => match minor_cycle 2 2 d unit_dot (Q2Qc (1 # 10)) 2000 with Ok a => a | Raise _ => d end). intro d.
  destruct (C95_minor_proof 2 2 d unit_dot (Q2Qc (1 # 10)) 2000) as [out [_ [_ [E _]]]]; [lia|lia|lia|]. rewrite E. reflexivity.
Qed.
(** C97: no model of the fit is negative anywhere. *)
Lemma C97_not_negative_proof : forall (sim tidy : picture -> picture) (img start : picture) (gain simToModel : Qc) (k : nat) (c : cell), (0 <= model sim tidy img (without_negative start) gain simToModel k c)%Qc.
Proof.
  intros sim tidy img start gain simToModel k c. assert (G : forall a, (0 <= without_negative a c)%Qc).
  { intro a. unfold without_negative. destruct (Qle_bool (a c) 0) eqn:T; [apply Qcle_refl|]. apply Qcnot_lt_le. intro L. apply Qclt_le_weak in L. assert (T2 : Qle_bool (a c) 0 = true) by (apply Qle_bool_iff; exact L). congruence. }
  destruct k; apply G.
Qed.
(** C97: turns that improve are few: after the first, n of them lower the deviation by n times rtol. *)
Lemma C97_turns_proof : forall (H W : Z) (sim tidy : picture -> picture) (deviation : list Qc -> Qc) (img m0 : picture) (gain simToModel first rtol : Qc) (n : nat), (0 <= rtol)%Qc -> (forall l, (0 <= deviation l)%Qc) ->
  (forall j, (j < n)%nat -> improves H W sim tidy deviation img m0 gain simToModel first rtol j) -> (num (Z.of_nat n - 1) * rtol <= rms H W sim tidy deviation img m0 gain simToModel 0)%Qc.
Proof.
  intros H W sim tidy deviation img m0 gain simToModel first rtol n P D HI. destruct n as [|n].
  - eapply Qcle_trans; [|apply D]. replace (num (Z.of_nat 0 - 1) * rtol)%Qc with (- rtol)%Qc by (replace (num (Z.of_nat 0 - 1)) with (- (1))%Qc by (apply Qc_is_canon; reflexivity); ring).
    apply Qcopp_le_compat in P. replace (- 0)%Qc with 0%Qc in P by ring. exact P.
  - replace (Z.of_nat (S n) - 1) with (Z.of_nat n) by lia.
    assert (G : (rms H W sim tidy deviation img m0 gain simToModel n + num (Z.of_nat n) * rtol <= rms H W sim tidy deviation img m0 gain simToModel 0)%Qc).
    { apply drops with (first := first); [exact P|]. intros j Hj. apply HI. lia. }
    eapply Qcle_trans; [|exact G]. pose proof (le_shift 0 (rms H W sim tidy deviation img m0 gain simToModel n) (num (Z.of_nat n) * rtol)%Qc (D _)) as Q. replace (0 + num (Z.of_nat n) * rtol)%Qc with (num (Z.of_nat n) * rtol)%Qc in Q by ring. exact Q.
Qed.
Definition sizes (l : list Qc) : Qc := total (map (fun x => if Qclt_le_dec x 0 then (- x)%Qc else x) l).
Definition thrice (m : picture) : picture := fun c => (num 3 * m c)%Qc.
Definition eight : picture := fun _ => num 8.
Lemma C97_turns_example_proof : improves 2 2 thrice (fun d => d) sizes dot eight 1 1 (num 1000) (num 1) 0 /\ improves 2 2 thrice (fun d => d) sizes dot eight 1 1 (num 1000) (num 1) 1.
Proof. repeat split; intro E; vm_compute in E; discriminate E. Qed.
(** C97, finding: when a turn makes it worse the code says it goes back to the turn before, but it only takes that turn's residuals, with the model of the worse turn: here turn 2 is worse than turn 1, and the result is
    neither the sum of model and residuals of turn 1 (8) nor that of turn 2 (-8). *)
Lemma C97_worse_refuted_proof : worsens 2 2 thrice (fun d => d) sizes dot eight 1 1 (num 1000) 2 /\
  shown_o (lsq 2 2 (fun m => Some (thrice m)) sizes (fun a => a) unit_dot (fun _ => false) dot 1 (num 1) 1 1 10) [(0, 0)] = [Some (16 # 1)]%Q /\
  map (fun k => this (Qcplus (model thrice (fun d => d) dot eight 1 1 k (0, 0)) (residual thrice (fun d => d) dot eight 1 1 k (0, 0)))) [1; 2]%nat = [8 # 1; (-8) # 1]%Q.
Proof. split; [|split]; vm_compute; reflexivity. Qed.
(** C97, finding: without a turn, or if there is nothing to simulate in the first, the fit ends in a NameError. *)
Lemma C97_no_turn_refuted_proof : forall (H W : Z) (simulate : picture -> option picture) (deviation : list Qc -> Qc) (convolve : picture -> picture) (beamClean : picture) (mask : cell -> bool)
  (img : picture) (gain rtol simToModel modelToSim : Qc) (max_iter : Z), 0 < H -> 0 < W -> max_iter <= 0 \/ (forall m, simulate m = None) ->
  lsq H W simulate deviation convolve beamClean mask img gain rtol simToModel modelToSim max_iter = Raise NameError.
Proof.
  intros H W simulate deviation convolve beamClean mask img gain rtol simToModel modelToSim max_iter HH HW D. unfold lsq.
  destruct (imax (values H W img)) as [m|] eqn:M.
  2:{ exfalso. assert (I : In (0, 0) (cells H W)) by (apply cells_in; split; cbn [fst snd]; lia). unfold values in M. destruct (cells H W); [destruct I|discriminate]. }
  destruct (Z.leb_spec max_iter 0) as [L|L].
  - replace (Z.to_nat max_iter) with 0%nat by lia. reflexivity.
  - destruct D as [D|D]; [lia|]. destruct (Z.to_nat max_iter) eqn:E; [lia|]. cbn [lsq_loop]. unfold lsq_step. rewrite D. reflexivity.
Qed.
Lemma C97_no_turn_example_proof : forall m : picture, (fun _ : picture => @None picture) m = None.
Proof. reflexivity. Qed.
