(** FXMaster: from the cells of the kernels to the correlations of the signals. *)
From Coq Require Import List ZArith QArith Qcanon Bool Lia Permutation.
From Verif Require Import LibList M_Base P_Base M_Corr M_CorrPy S_Corr P_Corr P_CorrSpec P_CorrPsd P_CorrF.
Import ListNotations.
Open Scope Z_scope.

Lemma total_c_filter : forall (p : Z -> bool) (g : Z -> C) l, total_c (map (fun j => cscale (factor (p j)) (g j)) l) = total_c (map g (filter p l)).
Proof.
  intros p g l. induction l as [|j l IH]; [reflexivity|]. cbn [map total_c filter]. rewrite IH. destruct (p j); cbn [map total_c factor].
  - f_equal. unfold cscale. destruct (g j) as [a b]. cbn [fst snd]. f_equal; ring.
  - change plus with cadd. generalize (total_c (map g (filter p l))). intros [c d]. unfold cscale, cadd. destruct (g j) as [a b]. cbn [fst snd]. f_equal; ring.
Qed.
Lemma cdiv_mean : forall l : list C, cdiv (total_c l) (zlen l) = mean_c l.
Proof.
  intro l. unfold cdiv, mean_c. destruct l as [|z l]; [reflexivity|]. assert (0 < zlen (z :: l)) by (rewrite zlen_cons; pose proof (zlen_nonneg l); lia).
  destruct (Z.eqb_spec (zlen (z :: l)) 0); [lia|]. reflexivity.
Qed.

(** The number of transforms: what fits in the samples that are left after the longest delay. *)
Lemma count_starts : forall n fmax L Ov step nFFT, 0 < Ov -> 0 < step -> L = step * Ov -> 0 <= n -> count_ffts n fmax L Ov = Some nFFT -> 0 <= nFFT ->
  starts L (n - fmax) step = map (fun j => j * step) (range 0 nFFT) /\ forall j, 0 <= j < nFFT -> 0 <= j * step /\ j * step + L <= n - fmax.
Proof.
  intros n fmax L Ov step nFFT HOv Hst HLs Hn Hc Hf. destruct (Z.le_gt_cases fmax n) as [H|H].
  - rewrite (count_exact n fmax L Ov step) in Hc by (assumption || lia). injection Hc as Hc. split.
    + apply (starts_windows L (n - fmax) Ov step nFFT); auto; lia.
    + intros j Hj. apply (window_fits L (n - fmax) Ov step nFFT); auto; lia.
  - unfold count_ffts in Hc. destruct (Z.eqb_spec Ov 0); [lia|]. subst L. rewrite Z.quot_mul in Hc by lia. destruct (Z.eqb_spec step 0); [lia|].
    injection Hc as Hc. rewrite (Z.mul_comm step Ov), Z.quot_mul in Hc by lia.
    assert (Z.quot (n - fmax) step <= 0).
    { replace (n - fmax) with (- (fmax - n)) by lia. rewrite Z.quot_opp_l by lia. pose proof (Z.quot_pos (fmax - n) step). lia. }
    assert (nFFT = 0) by lia. subst nFFT. rewrite H1. split; [|lia]. unfold starts. destruct (Z.ltb_spec (n - fmax) (step * Ov)); [reflexivity|nia].
Qed.

Lemma xcell : forall F L taps level w n nFFT nChan Ov step nStand sh rows1 rows2 junk1 junk2 fifo1 fifo2 fmax1 fmax2 rot1 rot2 order1 order2 orderX b s1 s2 k,
  0 < L -> 0 < taps -> 0 < Ov -> 0 < step -> L = step * Ov -> 0 <= n -> 0 < nChan ->
  (forall r, In r rows1 -> zlen r = n) -> (forall r, In r rows2 -> zlen r = n) -> zlen rows1 = nStand -> zlen rows2 = nStand ->
  (forall i, 0 <= i < nStand -> 0 <= fifo1 i <= fmax1) -> (forall i, 0 <= i < nStand -> 0 <= fifo2 i <= fmax2) ->
  count_ffts n fmax1 L Ov = Some nFFT -> count_ffts n fmax2 L Ov = Some nFFT -> 0 <= nFFT ->
  Permutation order1 (range 0 (nStand * nFFT)) -> Permutation order2 (range 0 (nStand * nFFT)) -> Permutation orderX (range 0 (zlen (mapper nStand))) ->
  0 <= b < zlen (mapper nStand) -> znth (0, 0) b (mapper nStand) = (s1, s2) -> 0 <= s1 < nStand -> 0 <= s2 < nStand -> 0 <= k < nChan ->
  let e1 := compute_fengine F L taps level w n nFFT nChan Ov sh (flat n rows1 junk1) fifo1 rot1 order1 in
  let e2 := compute_fengine F L taps level w n nFFT nChan Ov sh (flat n rows2 junk2) fifo2 rot2 order2 in
  xengine2 nStand nChan nFFT (fst e1) (fst e2) (snd e1) (snd e2) orderX (b * nChan + k) =
  vis F L taps w level step fmax1 (znth [] s1 rows1) (znth [] s2 rows2) (fifo1 s1) (fifo2 s2) (rot1 s1 k) (rot2 s2 k) (source nChan sh k).
Proof.
  intros F L taps level w n nFFT nChan Ov step nStand sh rows1 rows2 junk1 junk2 fifo1 fifo2 fmax1 fmax2 rot1 rot2 order1 order2 orderX b s1 s2 k
    HL Ht HOv Hst HLs Hn Hc Hr1 Hr2 Hz1 Hz2 Hf1 Hf2 Hc1 Hc2 Hf Ho1 Ho2 HoX Hb Hm Hs1 Hs2 Hk. cbv zeta.
  rewrite xengine2_at by assumption. rewrite Hm.
  set (x1 := znth [] s1 rows1). set (x2 := znth [] s2 rows2).
  assert (Hx1 : zlen x1 = n) by (apply Hr1; apply znth_In; lia).
  assert (Hx2 : zlen x2 = n) by (apply Hr2; apply znth_In; lia).
  assert (Hd1 : forall q, 0 <= q < n -> flat n rows1 junk1 (n * s1 + q) = znth c0 q x1) by (intros q Hq; apply flat_at; auto; lia).
  assert (Hd2 : forall q, 0 <= q < n -> flat n rows2 junk2 (n * s2 + q) = znth c0 q x2) by (intros q Hq; apply flat_at; auto; lia).
  destruct (count_starts n fmax1 L Ov step nFFT HOv Hst HLs Hn Hc1 Hf) as [St Fit1].
  destruct (count_starts n fmax2 L Ov step nFFT HOv Hst HLs Hn Hc2 Hf) as [_ Fit2].
  destruct (Hf1 s1 Hs1) as [Hp1 Hq1]. destruct (Hf2 s2 Hs2) as [Hp2 Hq2].
  unfold vis. change complex with C in *. rewrite Hx1, St. rewrite filter_map, map_map.
  set (ok1 := fun j => negb (blanked L taps level x1 (j * step + fifo1 s1))). set (ok2 := fun j => negb (blanked L taps level x2 (j * step + fifo2 s2))).
  assert (K1 : forall j, 0 <= j < nFFT -> fok L taps level n Ov (flat n rows1 junk1) fifo1 s1 j = ok1 j).
  { intros j Hj. destruct (Fit1 j Hj). unfold fok, ok1. rewrite (start_step L n Ov step) by assumption. rewrite (Z.add_comm (j * step)). apply clean_blanked; auto; lia. }
  assert (K2 : forall j, 0 <= j < nFFT -> fok L taps level n Ov (flat n rows2 junk2) fifo2 s2 j = ok2 j).
  { intros j Hj. destruct (Fit2 j Hj). unfold fok, ok2. rewrite (start_step L n Ov step) by assumption. rewrite (Z.add_comm (j * step)). apply clean_blanked; auto; lia. }
  rewrite (act_vis_count nFFT _ _ s1 s2 ok1 ok2).
  2: { intros f Hff. rewrite (fengine_valid _ _ _ _ _ _ _ _ _ nStand) by (assumption || lia). rewrite K1 by exact Hff. reflexivity. }
  2: { intros f Hff. rewrite (fengine_valid _ _ _ _ _ _ _ _ _ nStand) by (assumption || lia). rewrite K2 by exact Hff. reflexivity. }
  unfold product. rewrite dotc_total.
  rewrite (map_ext_in _ (fun j => cscale (factor (ok1 j && ok2 j)) (times_conj (c_times (bin F L taps w x1 (j * step + fifo1 s1) (source nChan sh k)) (rot1 s1 k))
     (c_times (bin F L taps w x2 (j * step + fifo2 s2) (source nChan sh k)) (rot2 s2 k))))).
  - rewrite (total_c_filter (fun j => ok1 j && ok2 j)). rewrite <- (zlen_map _ C (fun j => times_conj (c_times (bin F L taps w x1 (j * step + fifo1 s1) (source nChan sh k)) (rot1 s1 k))
     (c_times (bin F L taps w x2 (j * step + fifo2 s2) (source nChan sh k)) (rot2 s2 k)))). rewrite cdiv_mean. reflexivity.
  - intros j Hj. apply range_in in Hj. destruct (Fit1 j Hj). destruct (Fit2 j Hj).
    replace (s1 * nChan * nFFT + k * nFFT + j) with (fadr nFFT nChan s1 j k) by (unfold fadr; ring).
    replace (s2 * nChan * nFFT + k * nFFT + j) with (fadr nFFT nChan s2 j k) by (unfold fadr; ring).
    rewrite !(fengine_data _ _ _ _ _ _ _ _ _ nStand) by (assumption || lia). unfold fval. rewrite K1, K2 by exact Hj.
    rewrite !(start_step L n Ov step) by assumption.
    rewrite (channel_bin F L taps w n s1 (flat n rows1 junk1) x1 HL Ht Hd1) by lia.
    rewrite (channel_bin F L taps w n s2 (flat n rows2 junk2) x2 HL Ht Hd2) by lia.
    rewrite (Z.add_comm (fifo1 s1)), (Z.add_comm (fifo2 s2)). 
    generalize (bin F L taps w x1 (j * step + fifo1 s1) (source nChan sh k)) (bin F L taps w x2 (j * step + fifo2 s2) (source nChan sh k)) (rot1 s1 k) (rot2 s2 k).
    intros [a1 a2] [b1 b2] [p1 p2] [q1 q2]. unfold factor. destruct (ok1 j), (ok2 j); cbn [andb]; unfold cmul, cscale, times_conj, c_times; cbn [fst snd]; f_equal; ring.
Qed.
