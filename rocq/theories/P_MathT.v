(** Theorems about lsl/misc/mathutils.py. *)
From Coq Require Import String List ZArith Lia QArith Qcanon Bool.
From Verif Require Import LibList M_Py M_Base M_Math S_Corr S_Math P_Base P_Corr P_Beam P_CorrFX P_CorrPsd P_Math P_MathS.
Import ListNotations.
Open Scope Z_scope.

(** C89: downsample() by a positive factor returns, for each complete run of that many consecutive numbers, its mean or its sum; what is left
    over at the end is dropped. *)
Lemma C89_downsample_proof : forall (vector : list Qc) factor (rescale : bool), 0 < factor ->
  downsample vector factor rescale =
    Ok (map (fun i => (total (run factor i vector) / (if rescale then num factor else 1))%Qc) (upto 0 (zlen vector / factor))).
Proof. exact downsample_ok. Qed.
Definition nums (l : list Z) : list Qc := map num l.
Lemma same_list (l r : list Qc) : map this l = map this r -> l = r.
Proof.
  revert r. induction l as [|x l IH]; intros [|y r] H; try discriminate H; [reflexivity|]. cbn [map] in H. injection H as H1 H2.
  f_equal; [apply Qc_is_canon; unfold Qeq; rewrite H1; reflexivity|auto].
Qed.
Lemma C89_downsample_example_proof : downsample (nums [1; 2; 3; 4; 5; 6; 7; 8]) 3 true = Ok (nums [2; 5]) /\
  downsample (nums [1; 2; 3; 4; 5; 6; 7; 8]) 3 false = Ok (nums [6; 15]).
Proof. split; (rewrite C89_downsample_proof by lia); apply f_equal, same_list; vm_compute; reflexivity. Qed.
(** C89: a factor of zero is a ZeroDivisionError. *)
Lemma C89_downsample_zero_proof : forall vector rescale, downsample vector 0 rescale = Raise ZeroDivisionError.
Proof. reflexivity. Qed.

(** C89: regrid() with linear interpolation of data in increasing order, asked for points within them, returns for each the value on the line that joins the
    data. *)
Lemma C89_regrid_proof : forall x y newx, increasing x -> zlen x = zlen y -> x <> [] -> newx <> [] ->
  (forall v, In v newx -> (at_ x 0 <= v)%Qc /\ (v <= at_ x (zlen x - 1))%Qc) ->
  exists r, regrid_linear x y newx = Ok r /\ Forall2 (joined x y) newx r.
Proof. exact regrid_ok. Qed.
(** C89: hence the data themselves at their own points, and what lies on a straight line stays on it. *)
Lemma C89_regrid_exact_proof : forall x y newx r i, increasing x -> zlen x = zlen y -> x <> [] -> newx <> [] ->
  (forall v, In v newx -> (at_ x 0 <= v)%Qc /\ (v <= at_ x (zlen x - 1))%Qc) ->
  regrid_linear x y newx = Ok r -> 0 <= i < zlen newx ->
  (forall k, 0 <= k < zlen x -> at_ newx i = at_ x k -> at_ r i = at_ y k) /\
  (forall a b, (forall k, 0 <= k < zlen x -> at_ y k = (a + b * at_ x k)%Qc) -> at_ r i = (a + b * at_ newx i)%Qc).
Proof.
  intros x y newx r i HI HL HX HN HV HR Hi. destruct (regrid_ok x y newx HI HL HX HN HV) as (r' & E & F). rewrite HR in E. injection E as <-.
  assert (J : joined x y (at_ newx i) (at_ r i)).
  { clear - F Hi. revert i Hi. induction F as [|v w l l' H F IH]; intros i Hi; [cbn in Hi; lia|]. destruct (Z.eq_dec i 0) as [->|N]; [exact H|].
    replace i with (i - 1 + 1) by lia. rewrite !at_cons_S by lia. apply IH. rewrite zlen_cons in Hi. lia. }
  split.
  - intros k Hk E. rewrite E in J. apply (joined_node x y k); auto.
  - intros a b HY. apply (joined_line x y); auto.
Qed.
Definition four_x : list Qc := nums [0; 1; 3; 10].
Lemma increasing_four : increasing four_x.
Proof.
  intros i j Hi Hj. assert (E : (i = 0 /\ (j = 1 \/ j = 2 \/ j = 3)) \/ (i = 1 /\ (j = 2 \/ j = 3)) \/ (i = 2 /\ j = 3)) by (cbn in Hj; lia).
  destruct E as [[-> [->|[->| ->]]]|[[-> [->| ->]]|[-> ->]]]; vm_compute; reflexivity.
Qed.
Lemma C89_regrid_example_proof : increasing four_x /\
  (forall v, In v (nums [2; 1; 10; 5]) -> (at_ four_x 0 <= v)%Qc /\ (v <= at_ four_x 3)%Qc) /\
  regrid_linear four_x (nums [5; 7; 3; 17]) (nums [2; 1; 10; 5]) = Ok (nums [5; 7; 17; 7]).
Proof.
  split; [exact increasing_four|]. split.
  - intros v H. cbn in H. repeat (destruct H as [<-|H]; [split; vm_compute; intro X; discriminate X|]). contradiction.
  - unfold regrid_linear. cbn [four_x nums map array_min array_max bind amin amax]. 
    repeat match goal with |- context [Qle_bool ?a ?b] => let e := eval vm_compute in (Qle_bool a b) in change (Qle_bool a b) with e; cbv iota end.
    cbn [negb zlen length Z.of_nat Z.eqb Pos.of_succ_nat Pos.succ Pos.eqb map]. apply f_equal, same_list. vm_compute. reflexivity.
Qed.
(** C89: a point outside of the data is a ValueError. *)
Lemma C89_regrid_outside_proof : forall x y newx v, increasing x -> x <> [] -> In v newx -> (v < at_ x 0)%Qc \/ (at_ x (zlen x - 1) < v)%Qc ->
  regrid_linear x y newx = Raise ValueError.
Proof. exact regrid_outside. Qed.
Lemma C89_regrid_outside_example_proof : increasing four_x /\ In (num 11) (nums [2; 11]) /\ (at_ four_x 3 < num 11)%Qc.
Proof. split; [exact increasing_four|]. split; [cbn; auto|vm_compute; reflexivity]. Qed.

(** C89: smooth() of more numbers than the window is long returns as many numbers: each is the mean, with the weights of the window, of the numbers around
    its place, the signal being continued by its reflection at both ends. *)
Lemma C89_smooth_proof : forall windows x wl window, 3 <= wl < zlen x -> In window ["flat"; "hanning"; "hamming"; "bartlett"; "blackman"]%string ->
  zlen (weights windows window wl) = wl ->
  smooth windows x wl window = Ok (map (weighted_mean (weights windows window wl) (reflected x)) (upto 0 (zlen x))).
Proof. exact smooth_ok. Qed.
Lemma C89_smooth_example_proof : smooth (fun _ _ => []) (nums [3; 6; 9; 0; 3; 3]) 3 "flat" = Ok (nums [2; 6; 5; 4; 2; 3]).
Proof.
  rewrite C89_smooth_proof; [|cbn; lia|cbn; auto|reflexivity].
  apply f_equal, same_list. vm_compute. reflexivity.
Qed.
(** C89: away from the ends, where the window covers only the signal, that is the mean of the signal itself; *)
Lemma C89_smooth_middle_proof : forall w x i, zlen w - 1 - (zlen w - 1) / 2 <= i -> i + (zlen w - 1) / 2 < zlen x ->
  weighted_mean w (reflected x) i = weighted_mean w (at_ x) i.
Proof. intros w x i H1 H2. apply mean_ext. intros j Hj. apply reflected_in. lia. Qed.
(** C89: smoothing is linear in the signal; *)
Lemma reflected_linear x y a b n : zlen x = n -> zlen y = n -> forall i, - n + 1 < i < 2 * n ->
  reflected (map (fun p => (a * fst p + b * snd p)%Qc) (combine x y)) i = (a * reflected x i + b * reflected y i)%Qc.
Proof.
  intros HX HY i Hi. set (z := map _ (combine x y)). assert (LC : zlen (combine x y) = n) by (unfold zlen in *; rewrite combine_length; lia).
  assert (LZ : zlen z = n) by (unfold z; rewrite zlen_map; exact LC).
  assert (AT : forall k, 0 <= k < n -> at_ z k = (a * at_ x k + b * at_ y k)%Qc).
  { intros k Hk. unfold at_, z. rewrite (znth_map _ _ _ (0%Qc, 0%Qc)) by lia. unfold znth. destruct (Z.ltb_spec k 0); [lia|]. rewrite combine_nth by (unfold zlen in *; lia). reflexivity. }
  unfold reflected. rewrite HX, HY, LZ. destruct (Z.ltb_spec i 0); [rewrite !AT by lia; ring|]. destruct (Z.ltb_spec i n); [apply AT; lia|]. rewrite !AT by lia. ring.
Qed.
Lemma C89_smooth_linear_proof : forall windows x y wl window rx ry a b, 3 <= wl < zlen x -> zlen y = zlen x -> zlen (weights windows window wl) = wl ->
  smooth windows x wl window = Ok rx -> smooth windows y wl window = Ok ry ->
  smooth windows (map (fun p => (a * fst p + b * snd p)%Qc) (combine x y)) wl window = Ok (map (fun p => (a * fst p + b * snd p)%Qc) (combine rx ry)).
Proof.
  intros windows x y wl window rx ry a b HW HY HL RX RY.
  assert (K : In window known).
  { apply known_in. destruct (existsb (String.eqb window) known) eqn:E; [reflexivity|]. unfold smooth in RX. fold known in RX. rewrite E in RX.
    destruct (Z.ltb_spec (zlen x) wl); [lia|]. destruct (Z.ltb_spec wl 3); [lia|]. discriminate RX. }
  rewrite smooth_ok in RX by (auto; lia). rewrite smooth_ok in RY by (auto; lia). injection RX as <-. injection RY as <-.
  assert (LC : zlen (map (fun p => (a * fst p + b * snd p)%Qc) (combine x y)) = zlen x) by (rewrite zlen_map; unfold zlen in *; rewrite combine_length; lia).
  rewrite smooth_ok by (auto; lia). rewrite LC, HY. f_equal. rewrite upto_range.
  assert (CM : forall (A B : Type) (f : Z -> A) (g : Z -> B) l, combine (map f l) (map g l) = map (fun i => (f i, g i)) l).
  { intros A B f g l. induction l as [|i l IH]; [reflexivity|]. cbn [map combine]. f_equal. exact IH. }
  rewrite CM, map_map. apply range_ext. intros i Hi. cbn [fst snd]. rewrite <- mean_linear. apply mean_ext. intros j Hj. apply (reflected_linear x y a b (zlen x)); auto.
  rewrite HL in *. pose proof (Z.div_pos (wl - 1) 2 ltac:(lia) ltac:(lia)). assert ((wl - 1) / 2 <= wl - 1 - 1) by (apply Z.div_le_upper_bound; lia). assert (1 <= (wl - 1) / 2) by (apply Z.div_le_lower_bound; lia). lia.
Qed.
(** C89: a constant signal stays what it is; *)
Lemma C89_smooth_constant_proof : forall windows n c wl window, 3 <= wl < n -> In window ["flat"; "hanning"; "hamming"; "bartlett"; "blackman"]%string ->
  zlen (weights windows window wl) = wl -> total (weights windows window wl) <> 0%Qc ->
  smooth windows (repeat c (Z.to_nat n)) wl window = Ok (repeat c (Z.to_nat n)).
Proof.
  intros windows n c wl window HW HK HL HT. set (x := repeat c (Z.to_nat n)). assert (LX : zlen x = n) by (unfold x, zlen; rewrite repeat_length; lia).
  rewrite smooth_ok by (auto; lia). f_equal. rewrite LX, upto_range.
  assert (AT : forall k, 0 <= k < n -> at_ x k = c).
  { intros k Hk. pose proof (at_in x k ltac:(lia)) as I. unfold x in I. apply repeat_spec in I. exact I. }
  transitivity (map (fun i => at_ x i) (range 0 n)); [|unfold at_; rewrite <- LX; apply znth_self]. apply range_ext. intros i Hi. rewrite AT by lia.
  rewrite (mean_ext _ _ (fun _ => c)); [apply mean_constant; exact HT|]. intros j Hj. apply reflected_constant; rewrite LX; [exact AT|]. rewrite HL in *.
  pose proof (Z.div_pos (wl - 1) 2 ltac:(lia) ltac:(lia)). assert ((wl - 1) / 2 <= wl - 1 - 1) by (apply Z.div_le_upper_bound; lia). assert (1 <= (wl - 1) / 2) by (apply Z.div_le_lower_bound; lia). lia.
Qed.
Lemma C89_smooth_constant_example_proof : 3 <= 5 < 8 /\ In "flat"%string ["flat"; "hanning"; "hamming"; "bartlett"; "blackman"]%string /\
  zlen (weights (fun _ _ => []) "flat" 5) = 5 /\ total (weights (fun _ _ => []) "flat" 5) <> 0%Qc.
Proof. split; [lia|]. split; [cbn; auto|]. split; [reflexivity|]. intro H. apply (f_equal this) in H. vm_compute in H. discriminate H. Qed.
(** C89: a straight line is kept, away from the ends, by a window of odd length that is the same from both sides. *)
Lemma C89_smooth_line_partial_proof : forall w x a b i, total w <> 0%Qc -> (forall j, 0 <= j < zlen w -> at_ w j = at_ w (zlen w - 1 - j)) -> Z.odd (zlen w) = true ->
  (forall k, 0 <= k < zlen x -> at_ x k = (a + b * num k)%Qc) -> (zlen w - 1) / 2 <= i -> i + (zlen w - 1) / 2 < zlen x ->
  weighted_mean w (reflected x) i = at_ x i.
Proof.
  intros w x a b i HT HM HO HX H1 H2. assert (D : zlen w - 1 = 2 * ((zlen w - 1) / 2)).
  { apply Z.odd_spec in HO. destruct HO as [k K]. assert ((zlen w - 1) / 2 = k) by (symmetry; apply (Z.div_unique_pos _ _ _ 0); lia). lia. }
  pose proof (zlen_nonneg w) as W0.
  rewrite HX by lia. rewrite <- (mean_line w a b i HT HM HO). apply mean_ext. intros j Hj. rewrite reflected_in by lia. apply HX. lia.
Qed.
Lemma C89_smooth_line_partial_example_proof : let w := repeat 1%Qc 3 in total w <> 0%Qc /\ (forall j, 0 <= j < zlen w -> at_ w j = at_ w (zlen w - 1 - j)) /\ Z.odd (zlen w) = true.
Proof.
  split; [intro H; apply (f_equal this) in H; vm_compute in H; discriminate H|]. split; [|reflexivity].
  intros j Hj. assert (E : j = 0 \/ j = 1 \/ j = 2) by (cbn in Hj; lia). destruct E as [->|[->| ->]]; reflexivity.
Qed.
(** C89 refuted: at the ends it is not: the straight line 0, 1, 2, ... starts with -1/3 instead of 0, because x[1] is left out of the reflection, and ends with 20/3 instead of 7. *)
Lemma C89_smooth_line_refuted_proof : exists r, smooth (fun _ _ => []) (nums [0; 1; 2; 3; 4; 5; 6; 7]) 3 "flat" = Ok r /\
  at_ r 0 = Q2Qc (-1 # 3) /\ at_ r 7 = Q2Qc (20 # 3).
Proof.
  eexists. split; [apply C89_smooth_proof; [cbn; lia|cbn; auto|reflexivity]|]. split; apply Qc_is_canon; vm_compute; reflexivity.
Qed.
(** C89: fewer numbers than the window is long, or a window of another name, is a ValueError; a window shorter than 3 returns the signal. *)
Lemma C89_smooth_errors_proof : forall windows x wl window,
  (zlen x < wl -> smooth windows x wl window = Raise ValueError) /\
  (wl < 3 -> wl <= zlen x -> smooth windows x wl window = Ok x) /\
  (3 <= wl <= zlen x -> ~ In window ["flat"; "hanning"; "hamming"; "bartlett"; "blackman"]%string -> smooth windows x wl window = Raise ValueError).
Proof.
  intros windows x wl window. unfold smooth. fold known. destruct (Z.ltb_spec (zlen x) wl) as [A|A]; [repeat split; auto; lia|].
  destruct (Z.ltb_spec wl 3) as [B|B]; [repeat split; auto; lia|]. repeat split; [lia|lia|]. intros _ HN. destruct (existsb (String.eqb window) known) eqn:E; [|reflexivity].
  apply known_in in E. contradiction.
Qed.
(** C89 refuted: for as many numbers as the window is long one number less is returned. *)
Lemma C89_smooth_equal_refuted_proof : forall windows x wl window, 3 <= wl -> zlen x = wl -> In window ["flat"; "hanning"; "hamming"; "bartlett"; "blackman"]%string ->
  exists r, smooth windows x wl window = Ok r /\ zlen r = zlen x - 1.
Proof.
  intros windows x wl window HW HL HK. apply known_in in HK. unfold smooth. fold known. rewrite HK. destruct (Z.ltb_spec (zlen x) wl); [lia|]. destruct (Z.ltb_spec wl 3); [lia|]. cbn [negb]. cbv zeta.
  eexists. split; [reflexivity|]. unfold convolve_same. set (s := _ ++ x ++ _). assert (LS : zlen s = 3 * wl - 3).
  { unfold s. rewrite !zlen_app, !zlen_map. unfold down_to_2, from_end. cbv zeta. rewrite !zlen_map, !zlen_range. lia. }
  rewrite zlen_ztake, zlen_zdrop; rewrite ?zlen_map, ?zlen_range, ?LS; lia.
Qed.
Lemma C89_smooth_equal_example_proof : 3 <= 3 /\ zlen (nums [1; 2; 3]) = 3.
Proof. split; [lia|reflexivity]. Qed.
