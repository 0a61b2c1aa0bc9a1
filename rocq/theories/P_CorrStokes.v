(** The Stokes spectrometer kernel. *)
From Coq Require Import List ZArith QArith Qcanon Bool Lia Permutation.
From Verif Require Import LibList M_Base P_Base M_Corr M_CorrPy S_Corr P_Corr P_CorrSpec P_CorrPsd.
Import ListNotations.
Open Scope Z_scope.

Section Kernel.
Context (F : list C -> list C) (L nTap Clip : Z) (window : option (Z -> Qc)) (nSamps nFFT nChan Overlap nStand : Z).
Hypothesis Hc : 0 < nChan.
Hypothesis Hn : 0 <= nFFT.
Context (sh : bool) (dataX dataY : Z -> C).

Definition adr (i p k : Z) : Z := p * nChan * nStand + nChan * i + k.
Lemma adr_inj : forall i p k i' p' k', 0 <= i < nStand -> 0 <= i' < nStand -> 0 <= k < nChan -> 0 <= k' < nChan -> adr i p k = adr i' p' k' -> p = p' /\ i = i' /\ k = k'.
Proof.
  unfold adr. intros i p k i' p' k' Hi Hi' Hk Hk' E.
  assert (E1 : nChan * (p * nStand + i) + k = nChan * (p' * nStand + i') + k') by lia.
  assert (A : p * nStand + i = p' * nStand + i').
  { rewrite (Z.div_unique_pos (nChan * (p * nStand + i) + k) nChan (p * nStand + i) k) by lia. rewrite E1. symmetry. apply (Z.div_unique_pos _ _ _ k'); lia. }
  assert (B : p = p').
  { rewrite (Z.div_unique_pos (p * nStand + i) nStand p i) by lia. rewrite A. symmetry. apply (Z.div_unique_pos _ _ _ i'); lia. }
  subst p'. lia.
Qed.

Definition ok (i j : Z) : bool :=
  clean L nTap Clip dataX (nSamps * i) (start L nSamps Overlap 0 i j) && clean L nTap Clip dataY (nSamps * i) (start L nSamps Overlap 0 i j).
Definition X (i j : Z) : Z -> C := channel F L nTap window dataX (nSamps * i) (start L nSamps Overlap 0 i j).
Definition Y (i j : Z) : Z -> C := channel F L nTap window dataY (nSamps * i) (start L nSamps Overlap 0 i j).
Definition step1 (i j k : Z) (m : mem (option Qc)) : mem (option Qc) :=
  let a := adr i in let b := ok i j in
  let m := add (a 0 k) (factor b * abs2 (X i j k))%Qc m in
  let m := add (a 0 k) (factor b * abs2 (Y i j k))%Qc m in
  let m := add (a 1 k) (factor b * abs2 (X i j k))%Qc m in
  let m := add (a 1 k) (- (factor b * abs2 (Y i j k)))%Qc m in
  let m := add (a 2 k) (qz 2 * factor b * fst (X i j k) * fst (Y i j k))%Qc m in
  let m := add (a 2 k) (qz 2 * factor b * snd (X i j k) * snd (Y i j k))%Qc m in
  let m := add (a 3 k) (qz 2 * factor b * snd (X i j k) * fst (Y i j k))%Qc m in
  add (a 3 k) (- (qz 2 * factor b * fst (X i j k) * snd (Y i j k)))%Qc m.
Lemma step1_at : forall i j k p m, 0 <= i < nStand -> 0 <= k < nChan -> 0 <= p < 4 ->
  step1 i j k m (adr i p k) = oadd (m (adr i p k)) (factor (ok i j) * stokes p (X i j k) (Y i j k))%Qc.
Proof.
  intros i j k p m Hi Hk Hp. unfold step1. cbv zeta.
  assert (D : forall p q, p <> q -> adr i p k <> adr i q k) by (intros a b Hab E; apply Hab; apply (adr_inj i a k i b k Hi Hi Hk Hk E)).
  destruct (X i j k) as [xa xb], (Y i j k) as [ya yb]. unfold abs2. cbn [fst snd].
  assert (Q : p = 0 \/ p = 1 \/ p = 2 \/ p = 3) by lia. destruct Q as [-> | [-> | [-> | ->]]];
    repeat (rewrite add_at || rewrite add_out by (apply D; lia)); rewrite ?oadd_oadd; f_equal; unfold stokes, times_conj, power; cbn [Z.eqb Pos.eqb fst snd];
    change qz with num; ring.
Qed.
Lemma step1_out : forall i j k m x, (forall p, 0 <= p < 4 -> x <> adr i p k) -> step1 i j k m x = m x.
Proof. intros i j k m x H. unfold step1. cbv zeta. repeat rewrite add_out by (apply H; lia). reflexivity. Qed.
Definition bodyj (i j : Z) (m : mem (option Qc)) : mem (option Qc) := loop 0 nChan (step1 i j) m.
Lemma bodyj_at : forall i j k p m, 0 <= i < nStand -> 0 <= k < nChan -> 0 <= p < 4 ->
  bodyj i j m (adr i p k) = oadd (m (adr i p k)) (factor (ok i j) * stokes p (X i j k) (Y i j k))%Qc.
Proof.
  intros i j k p m Hi Hk Hp. unfold bodyj, loop.
  rewrite (separate_at (step1 i j) (fun k x => exists p, 0 <= p < 4 /\ 0 <= k < nChan /\ x = adr i p k) _ _ k).
  - apply step1_at; assumption.
  - apply range_NoDup.
  - apply range_in. exact Hk.
  - exists p. auto.
  - intros k' Hk' m' x H. apply range_in in Hk'. apply step1_out. intros q Hq E. apply H. exists q. auto.
  - intros k' Hk' m1 m2 H x (q & Hq & Hkq & ->). rewrite !step1_at by assumption. rewrite H; [reflexivity|]. exists q. auto.
  - intros k1 k2 x _ _ (p1 & Hp1 & Hk1 & ->) (p2 & Hp2 & Hk2 & E). apply (adr_inj i p1 k1 i p2 k2); auto.
Qed.
Lemma bodyj_out : forall i j m x, (forall p k, 0 <= p < 4 -> 0 <= k < nChan -> x <> adr i p k) -> bodyj i j m x = m x.
Proof.
  intros i j m x H. unfold bodyj, loop. apply (separate_out (step1 i j) (fun k x => exists p, 0 <= p < 4 /\ 0 <= k < nChan /\ x = adr i p k)).
  - intros k' Hk' m' y Hy. apply range_in in Hk'. apply step1_out. intros q Hq E. apply Hy. exists q. auto.
  - intros k _ (p & Hp & Hk & ->). apply (H p k); auto.
Qed.

Definition finish (i nAct p : Z) (m : mem (option Qc)) : mem (option Qc) := scale L nChan (adr i p 0) nAct (maybe_shift nChan sh (adr i p 0) m).
Lemma finish_at : forall i nAct p k m, 0 <= k < nChan -> finish i nAct p m (adr i p k) = divided L nAct (m (adr i p (source nChan sh k))).
Proof.
  intros i nAct p k m Hk. unfold finish. assert (E : forall k, adr i p k = adr i p 0 + k) by (intro; unfold adr; lia). rewrite !(E k), (E (source nChan sh k)).
  rewrite scale_at by assumption. rewrite maybe_shift_at by assumption. reflexivity.
Qed.
Lemma finish_out : forall i nAct p m x, ~ (adr i p 0 <= x < adr i p 0 + nChan) -> finish i nAct p m x = m x.
Proof. intros i nAct p m x H. unfold finish. rewrite scale_out, maybe_shift_out by assumption. reflexivity. Qed.
Lemma adr_row : forall i p x, (exists k, 0 <= k < nChan /\ x = adr i p k) <-> adr i p 0 <= x < adr i p 0 + nChan.
Proof. intros i p x. unfold adr. split; [intros (k & Hk & ->); lia|]. intro H. exists (x - (p * nChan * nStand + nChan * i)). lia. Qed.
Lemma finish_all_at : forall i nAct p k m, 0 <= i < nStand -> 0 <= p < 4 -> 0 <= k < nChan ->
  loop 0 4 (finish i nAct) m (adr i p k) = divided L nAct (m (adr i p (source nChan sh k))).
Proof.
  intros i nAct p k m Hi Hp Hk. unfold loop.
  rewrite (separate_at (finish i nAct) (fun p x => adr i p 0 <= x < adr i p 0 + nChan) _ _ p).
  - apply finish_at. exact Hk.
  - apply range_NoDup.
  - apply range_in. exact Hp.
  - apply adr_row. exists k. auto.
  - intros q _ m' x H. apply finish_out. exact H.
  - intros q _ m1 m2 H x Hx. apply adr_row in Hx. destruct Hx as (k' & Hk' & ->). rewrite !finish_at by assumption. f_equal. apply H. apply adr_row.
    exists (source nChan sh k'). split; [apply source_range; assumption|reflexivity].
  - intros p1 p2 x _ _ H1 H2. apply adr_row in H1, H2. destruct H1 as (k1 & Hk1 & ->), H2 as (k2 & Hk2 & E). apply (adr_inj i p1 k1 i p2 k2); auto.
Qed.
Lemma finish_all_out : forall i nAct m x, (forall p k, 0 <= p < 4 -> 0 <= k < nChan -> x <> adr i p k) -> loop 0 4 (finish i nAct) m x = m x.
Proof.
  intros i nAct m x H. unfold loop. apply (separate_out (finish i nAct) (fun p x => adr i p 0 <= x < adr i p 0 + nChan)).
  - intros q _ m' y Hy. apply finish_out. exact Hy.
  - intros p Hp Hx. apply range_in in Hp. apply adr_row in Hx. destruct Hx as (k & Hk & E). apply (H p k); assumption.
Qed.

Definition stand_fn : Z -> mem (option Qc) -> mem (option Qc) := stokes_stand F L nTap Clip window nSamps nFFT nChan Overlap nStand sh dataX dataY.
Definition stokes_cell (i p b : Z) (o : option Qc) : option Qc :=
  divided L (zlen (filter (ok i) (range 0 nFFT))) (oadd o (total (map (fun j => factor (ok i j) * stokes p (X i j b) (Y i j b))%Qc (range 0 nFFT)))).
Lemma stand_eq : forall i m, stand_fn i m =
  let s := loop 0 nFFT (fun j s => (bodyj i j (fst s), if ok i j then snd s + 1 else snd s)) (m, 0) in loop 0 4 (finish i (snd s)) (fst s).
Proof.
  intros i m. unfold stand_fn, stokes_stand. cbv zeta. fold (ok i).
  change (loop 0 nFFT _ (m, 0)) with (loop 0 nFFT (fun j s => (bodyj i j (fst s), if ok i j then snd s + 1 else snd s)) (m, 0)).
  destruct (loop 0 nFFT (fun j s => (bodyj i j (fst s), if ok i j then snd s + 1 else snd s)) (m, 0)) as [m1 c1]. cbn [fst snd]. reflexivity.
Qed.
Lemma stand_at : forall i p k m, 0 <= i < nStand -> 0 <= p < 4 -> 0 <= k < nChan ->
  stand_fn i m (adr i p k) = stokes_cell i p (source nChan sh k) (m (adr i p (source nChan sh k))).
Proof.
  intros i p k m Hi Hp Hk. rewrite stand_eq. cbv zeta. rewrite finish_all_at by assumption. unfold stokes_cell.
  rewrite accumulate_count by exact Hn. f_equal. apply (accumulate nFFT (bodyj i)); [exact Hn|].
  intros j m' Hj. apply bodyj_at; auto. apply source_range; assumption.
Qed.
Lemma stand_out : forall i m x, (forall p k, 0 <= p < 4 -> 0 <= k < nChan -> x <> adr i p k) -> stand_fn i m x = m x.
Proof.
  intros i m x H. rewrite stand_eq. cbv zeta. rewrite finish_all_out by exact H. apply (accumulate_out nFFT (bodyj i)).
  intros j m' Hj. apply bodyj_out. exact H.
Qed.
Lemma compute_stokes_at : forall order i p k, Permutation order (range 0 nStand) -> 0 <= i < nStand -> 0 <= p < 4 -> 0 <= k < nChan ->
  compute_stokes F L nTap Clip window nSamps nFFT nChan Overlap nStand sh dataX dataY order (adr i p k) = stokes_cell i p (source nChan sh k) (Some 0%Qc).
Proof.
  intros order i p k Ho Hi Hp Hk. unfold compute_stokes, par. fold stand_fn.
  rewrite (separate_at stand_fn (fun i x => exists p k, 0 <= i < nStand /\ 0 <= p < 4 /\ 0 <= k < nChan /\ x = adr i p k) _ _ i).
  - rewrite stand_at by assumption. reflexivity.
  - apply (Permutation_NoDup (Permutation_sym Ho)). apply range_NoDup.
  - apply (Permutation_in _ (Permutation_sym Ho)). apply range_in. exact Hi.
  - exists p, k. auto.
  - intros j Hj m x H. apply (Permutation_in _ Ho) in Hj. apply range_in in Hj. apply stand_out. intros q l Hq Hl E. apply H. exists q, l. auto.
  - intros j Hj m1 m2 H x (q & l & Hj' & Hq & Hl & ->). rewrite !stand_at by assumption. rewrite H; [reflexivity|].
    exists q, (source nChan sh l). split; [exact Hj'|]. split; [exact Hq|]. split; [apply source_range; assumption|reflexivity].
  - intros i1 i2 x _ _ (p1 & k1 & Hi1 & Hp1 & Hk1 & ->) (p2 & k2 & Hi2 & Hp2 & Hk2 & E). apply (adr_inj i1 p1 k1 i2 p2 k2); auto.
Qed.
End Kernel.

Section Spec.
Context (F : list C -> list C) (L taps level : Z) (w : option (Z -> Qc)) (n : Z) (rx ry : list (list C)) (jx jy : Z -> C).
Hypothesis HL : 0 < L.
Hypothesis Ht : 0 < taps.
Hypothesis Hn : 0 <= n.
Hypothesis Hx : forall r, In r rx -> zlen r = n.
Hypothesis Hy : forall r, In r ry -> zlen r = n.
Hypothesis Hxy : zlen rx = zlen ry.
Lemma stokes_cell_psd : forall i p b, 0 <= i < zlen rx ->
  stokes_cell F L taps level w n (n / L - 1 + 1) 1 (flat n rx jx) (flat n ry jy) i p b (Some 0%Qc) =
  stokes_psd F L taps w level L (znth [] i rx) (znth [] i ry) p b.
Proof.
  intros i p b Hi. set (x := znth [] i rx). set (y := znth [] i ry). set (nFFT := n / L - 1 + 1).
  assert (Ex : zlen x = n) by (apply Hx; apply znth_In; exact Hi).
  assert (Ey : zlen y = n) by (apply Hy; apply znth_In; rewrite <- Hxy; exact Hi).
  assert (Dx : forall q, 0 <= q < n -> flat n rx jx (n * i + q) = znth c0 q x) by (intros q Hq; apply flat_at; assumption).
  assert (Dy : forall q, 0 <= q < n -> flat n ry jy (n * i + q) = znth c0 q y) by (intros q Hq; apply flat_at; auto; rewrite <- Hxy; exact Hi).
  assert (HLs : L = L * 1) by lia.
  unfold stokes_psd. change complex with C in *. rewrite Ex, (starts_windows L n 1 L nFFT) by (try assumption; try lia; reflexivity). rewrite filter_map, map_map.
  assert (Hwin : forall j, 0 <= j < nFFT -> 0 <= j * L /\ j * L + L <= n) by (intros j Hj; apply (window_fits L n 1 L nFFT); auto; lia).
  assert (Hst : forall j, start L n 1 0 i j = n * i + j * L) by (intro j; rewrite (start_step L n 1 L) by lia; lia).
  assert (Eok : forall j, In j (range 0 nFFT) -> ok L taps level n 1 (flat n rx jx) (flat n ry jy) i j =
    negb (blanked L taps level x (j * L)) && negb (blanked L taps level y (j * L))).
  { intros j Hj. apply range_in in Hj. destruct (Hwin j Hj). unfold ok. rewrite Hst. f_equal; apply clean_blanked; auto; lia. }
  unfold stokes_cell. rewrite (filter_ext_in' _ _ _ _ Eok).
  rewrite (map_ext_in _ (fun j => factor (negb (blanked L taps level x (j * L)) && negb (blanked L taps level y (j * L))) * stokes p (bin F L taps w x (j * L) b) (bin F L taps w y (j * L) b))%Qc).
  - rewrite total_filter. unfold oadd. rewrite <- divided_mean by exact HL. rewrite zlen_map. do 2 f_equal. ring.
  - intros j Hj. rewrite Eok by exact Hj. apply range_in in Hj. destruct (Hwin j Hj). f_equal. unfold X, Y. rewrite Hst.
    rewrite (channel_bin F L taps w n i (flat n rx jx) x HL Ht Dx) by lia. rewrite (channel_bin F L taps w n i (flat n ry jy) y HL Ht Dy) by lia. reflexivity.
Qed.
End Spec.
