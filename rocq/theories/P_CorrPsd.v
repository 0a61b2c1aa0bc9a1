(** SpecMaster: from the cells of the kernel to the spectra of the signals. *)
From Coq Require Import List ZArith QArith Qcanon Bool Lia Permutation.
From Verif Require Import LibList M_Base P_Base M_Corr M_CorrPy S_Corr P_Corr P_CorrSpec.
Import ListNotations.
Open Scope Z_scope.

Lemma num_mult : forall a b, num (a * b) = (num a * num b)%Qc.
Proof. intros a b. apply Qc_is_canon. unfold num, Qcmult, Q2Qc, this. rewrite !Qred_correct. rewrite inject_Z_mult. reflexivity. Qed.
Lemma num_plus : forall a b, num (a + b) = (num a + num b)%Qc.
Proof. intros a b. apply Qc_is_canon. unfold num, Qcplus, Q2Qc, this. rewrite !Qred_correct. rewrite inject_Z_plus. reflexivity. Qed.
Lemma num_inj : forall a b, num a = num b -> a = b.
Proof.
  intros a b H. apply (f_equal this) in H. unfold num, Q2Qc, this in H.
  assert (G : (inject_Z a == inject_Z b)%Q) by (rewrite <- (Qred_correct (inject_Z a)), <- (Qred_correct (inject_Z b)), H; reflexivity).
  unfold Qeq in G. cbn in G. lia.
Qed.
Lemma num_nz : forall a, a <> 0 -> num a <> 0%Qc.
Proof. intros a H E. apply H. apply num_inj. rewrite E. reflexivity. Qed.

Lemma divided_mean : forall L (l : list Qc), 0 < L -> divided L (zlen l) (Some (total l)) = option_map (fun v => (v / num L)%Qc) (mean l).
Proof.
  intros L l HL. unfold divided, mean. destruct l as [|x l]; [reflexivity|].
  assert (Hz : 0 < zlen (x :: l)) by (rewrite zlen_cons; pose proof (zlen_nonneg l); lia).
  destruct (Z.eqb_spec (zlen (x :: l)) 0); [lia|]. cbn [option_map]. f_equal. rewrite qz_num, num_mult. field. split; apply num_nz; lia.
Qed.

Lemma flat_at : forall n rows junk i q, (forall r, In r rows -> zlen r = n) -> 0 <= i < zlen rows -> 0 <= q < n ->
  flat n rows junk (n * i + q) = znth c0 q (znth [] i rows).
Proof.
  intros n rows junk i q Hr Hi Hq. unfold flat. replace ((0 <=? n * i + q) && (n * i + q <? zlen rows * n)) with true by nia.
  replace ((n * i + q) mod n) with q by (apply (Z.mod_unique_pos _ _ i); lia).
  replace ((n * i + q) / n) with i by (apply (Z.div_unique_pos _ _ _ q); lia). reflexivity.
Qed.

Lemma filter_map : forall A B (f : A -> B) p l, filter p (map f l) = map f (filter (fun x => p (f x)) l).
Proof. induction l as [|x l IH]; [reflexivity|]. cbn [map filter]. rewrite IH. destruct (p (f x)); reflexivity. Qed.
Lemma filter_ext_in' : forall A (p q : A -> bool) l, (forall x, In x l -> p x = q x) -> filter p l = filter q l.
Proof. induction l as [|x l IH]; intro H; [reflexivity|]. cbn [filter]. rewrite (H x (or_introl eq_refl)), IH; [reflexivity|]. intros y Hy. apply H. right. exact Hy. Qed.
Lemma zlen_map : forall A B (f : A -> B) l, zlen (map f l) = zlen l.
Proof. intros. unfold zlen. rewrite map_length. reflexivity. Qed.
Lemma spec_cell_neg : forall L F nTap Clip w n nFFT Ov data i b o, nFFT <= 0 -> spec_cell L F nTap Clip w n nFFT Ov data i b o = None.
Proof. intros. unfold spec_cell. cbv zeta. rewrite range_nil by lia. reflexivity. Qed.

Lemma start_step : forall L n Ov step fifo i j, 0 < Ov -> L = step * Ov -> start L n Ov fifo i j = n * i + (fifo + j * step).
Proof.
  intros L n Ov step fifo i j HOv ->. unfold start. replace (step * Ov * j) with (step * j * Ov) by ring. rewrite Z.quot_mul by lia. lia.
Qed.
Lemma starts_windows : forall L n Ov step nFFT, 0 < Ov -> 0 < step -> L = step * Ov -> 0 <= n -> nFFT = n / step - Ov + 1 ->
  starts L n step = map (fun j => j * step) (range 0 nFFT).
Proof.
  intros L n Ov step nFFT HOv Hst HLs Hn Hf. unfold starts. rewrite <- (count_windows n L step Ov) by assumption. rewrite <- Hf, upto_range. f_equal.
  destruct (Z.le_gt_cases nFFT 0); [rewrite !range_nil by lia; reflexivity|f_equal; lia].
Qed.
Lemma window_fits : forall L n Ov step nFFT j, 0 < Ov -> 0 < step -> L = step * Ov -> 0 <= n -> nFFT = n / step - Ov + 1 ->
  0 <= j < nFFT -> 0 <= j * step /\ j * step + L <= n.
Proof.
  intros L n Ov step nFFT j HOv Hst HLs Hn Hf Hj. assert (E := Z.mul_div_le n step ltac:(lia)). nia.
Qed.

Section Psd.
Context (F : list C -> list C) (L taps level : Z) (w : option (Z -> Qc)) (n : Z) (rows : list (list C)) (junk : Z -> C).
Context (Ov step nFFT : Z).
Hypothesis HL : 0 < L.
Hypothesis Ht : 0 < taps.
Hypothesis HOv : 0 < Ov.
Hypothesis Hst : 0 < step.
Hypothesis HLs : L = step * Ov.
Hypothesis Hn : 0 <= n.
Hypothesis Hr : forall r, In r rows -> zlen r = n.
Hypothesis Hf : nFFT = n / step - Ov + 1.

Lemma spec_cell_psd : forall i b, 0 <= i < zlen rows ->
  spec_cell L F taps level w n nFFT Ov (flat n rows junk) i b (Some 0%Qc) = psd F L taps w level step (znth [] i rows) b.
Proof.
  intros i b Hi. set (x := znth [] i rows).
  assert (Hx : zlen x = n) by (apply Hr; apply znth_In; exact Hi).
  assert (Hd : forall q, 0 <= q < n -> flat n rows junk (n * i + q) = znth c0 q x) by (intros q Hq; apply flat_at; assumption).
  unfold psd. change complex with C in *. rewrite Hx, (starts_windows L n Ov step nFFT) by assumption. rewrite filter_map, map_map.
  assert (Eok : forall j, In j (range 0 nFFT) -> clean L taps level (flat n rows junk) (n * i) (start L n Ov 0 i j) = negb (blanked L taps level x (j * step))).
  { intros j Hj. apply range_in in Hj. destruct (window_fits L n Ov step nFFT j HOv Hst HLs Hn Hf Hj). rewrite (start_step L n Ov step) by assumption. rewrite Z.add_0_l. apply clean_blanked; auto; lia. }
  unfold spec_cell. cbv zeta. rewrite (filter_ext_in' _ _ _ _ Eok).
  rewrite (map_ext_in _ (fun j => factor (negb (blanked L taps level x (j * step))) * power (bin F L taps w x (j * step) b))%Qc).
  - rewrite total_filter. unfold oadd. rewrite <- divided_mean by exact HL. rewrite zlen_map. do 2 f_equal. ring.
  - intros j Hj. rewrite Eok by exact Hj. apply range_in in Hj. destruct (window_fits L n Ov step nFFT j HOv Hst HLs Hn Hf Hj). rewrite abs2_power, (start_step L n Ov step) by assumption. rewrite Z.add_0_l.
    rewrite (channel_bin F L taps w n i (flat n rows junk) x HL Ht Hd) by lia. reflexivity.
Qed.
End Psd.

(** ** Frequencies *)
Lemma fftfreq_len : forall n d, 0 < n -> zlen (fftfreq n d) = n.
Proof.
  intros n d Hn. unfold fftfreq. rewrite zlen_map, zlen_app, !range_len.
  pose proof (Z.div_mod n 2 ltac:(lia)). pose proof (Z.mod_pos_bound n 2 ltac:(lia)).
  assert ((n - 1) / 2 = n / 2 + n mod 2 - 1) by (symmetry; apply (Z.div_unique_pos _ _ _ (1 - n mod 2)); lia). lia.
Qed.
Lemma znth_range' : forall lo hi k, 0 <= k < hi - lo -> znth 0 k (range lo hi) = lo + k.
Proof.
  intros lo hi k Hk. unfold range. rewrite (znth_map nat Z _ 0%nat).
  - unfold znth. destruct (Z.ltb_spec k 0); [lia|]. rewrite seq_nth by lia. lia.
  - unfold zlen. rewrite seq_length. lia.
Qed.
Lemma fftfreq_at : forall n d b, 0 < n -> 0 <= b < n -> znth 0%Qc b (fftfreq n d) = (num (if 2 * b <? n then b else b - n) * (1 / (num n * d)))%Qc.
Proof.
  intros n d b Hn Hb. assert (Hl := fftfreq_len n d Hn). unfold fftfreq in *. rewrite zlen_map in Hl. rewrite (znth_map _ _ _ 0) by lia. change qz with num. f_equal. f_equal.
  pose proof (Z.div_mod n 2 ltac:(lia)). pose proof (Z.mod_pos_bound n 2 ltac:(lia)).
  assert (E : (n - 1) / 2 = n / 2 + n mod 2 - 1) by (symmetry; apply (Z.div_unique_pos _ _ _ (1 - n mod 2)); lia).
  rewrite E. destruct (Z.ltb_spec (2 * b) n).
  - rewrite znth_app_l by (rewrite range_len; lia). rewrite znth_range' by lia. lia.
  - rewrite znth_app_r by (rewrite range_len; lia). rewrite range_len, znth_range' by lia. lia.
Qed.
Lemma fftshift_at : forall (l : list Qc) k, 0 <= k < zlen l -> znth 0%Qc k (fftshift l) = znth 0%Qc (shifted_bin (zlen l) k) l.
Proof.
  intros l k Hk. unfold fftshift, shifted_bin. set (n := zlen l) in *.
  pose proof (Z.div_mod n 2 ltac:(lia)). pose proof (Z.mod_pos_bound n 2 ltac:(lia)).
  assert (Hd : zlen (zdrop (n - n / 2) l) = n / 2) by (rewrite zlen_zdrop by lia; fold n; lia).
  destruct (Z.lt_ge_cases k (n / 2)).
  - rewrite znth_app_l by lia. rewrite znth_zdrop by lia. rewrite Z.mod_small by lia. f_equal. lia.
  - rewrite znth_app_r by lia. rewrite Hd, znth_ztake by lia. f_equal. apply (Z.mod_unique_pos _ _ 1); lia.
Qed.
Lemma fftshift_len : forall A (l : list A), zlen (fftshift l) = zlen l.
Proof.
  intros A l. unfold fftshift. rewrite zlen_app. 
  pose proof (Z.div_mod (zlen l) 2 ltac:(lia)). pose proof (Z.mod_pos_bound (zlen l) 2 ltac:(lia)). pose proof (zlen_nonneg l).
  rewrite zlen_zdrop, zlen_ztake by lia. lia.
Qed.
Lemma frequencies_len : forall cplx LFFT rate f0, 0 < LFFT -> zlen (frequencies cplx LFFT rate f0) = LFFT.
Proof.
  intros cplx LFFT rate f0 H. unfold frequencies. rewrite zlen_ztake by lia. destruct cplx.
  - rewrite fftshift_len, zlen_map, fftfreq_len by lia. lia.
  - rewrite fftfreq_len by lia. lia.
Qed.
Lemma frequencies_at : forall cplx LFFT rate f0 k, 0 < LFFT -> 0 <= k < LFFT -> rate <> 0%Qc ->
  znth 0%Qc k (frequencies cplx LFFT rate f0) =
  (if cplx then (f0 + bin_freq LFFT rate (shifted_bin LFFT k))%Qc else bin_freq (2 * LFFT) rate k).
Proof.
  intros cplx LFFT rate f0 k HL Hk Hr. unfold frequencies. rewrite znth_ztake by lia. destruct cplx.
  - assert (Hl : zlen (map (fun f => (f + f0)%Qc) (fftfreq (1 * LFFT) (1 / rate))) = LFFT) by (rewrite zlen_map, fftfreq_len by lia; lia).
    assert (Hs := Z.mod_pos_bound (k + LFFT - LFFT / 2) LFFT HL).
    rewrite fftshift_at by lia. rewrite Hl. rewrite (znth_map _ _ _ 0%Qc) by (rewrite zlen_map in Hl; unfold shifted_bin; lia).
    rewrite fftfreq_at by (unfold shifted_bin; lia). rewrite Z.mul_1_l. unfold bin_freq. fold (shifted_bin LFFT k).
    assert (num LFFT <> 0%Qc) by (apply num_nz; lia). field. split; assumption.
  - rewrite fftfreq_at by lia. unfold bin_freq. assert (num (2 * LFFT) <> 0%Qc) by (apply num_nz; lia). field. split; assumption.
Qed.

Lemma cells_at : forall A (d : A) rows cols a m i k, 0 <= i < rows -> 0 <= k < cols -> znth d k (znth [] i (cells rows cols a m)) = m (a + cols * i + k).
Proof.
  intros A d rows cols a m i k Hi Hk. unfold cells. rewrite (znth_map _ _ _ 0) by (rewrite range_len; lia).
  rewrite (znth_map _ _ _ 0) by (rewrite range_len; lia). rewrite !znth_range' by lia. f_equal; lia.
Qed.
Lemma cells_len : forall A rows cols a (m : mem A), 0 <= rows -> zlen (cells rows cols a m) = rows.
Proof. intros. unfold cells. rewrite zlen_map, range_len. lia. Qed.
Lemma cells_row_len : forall A rows cols a (m : mem A) r, 0 <= cols -> In r (cells rows cols a m) -> zlen r = cols.
Proof. intros A rows cols a m r Hc H. unfold cells in H. apply in_map_iff in H. destruct H as (i & <- & _). rewrite zlen_map, range_len. lia. Qed.
