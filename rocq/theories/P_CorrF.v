(** The F engine and X engine kernels. *)
From Coq Require Import List ZArith QArith Qcanon Bool Lia Permutation.
From Verif Require Import LibList M_Base P_Base M_Corr M_CorrPy S_Corr P_Corr P_CorrSpec P_CorrPsd.
Import ListNotations.
Open Scope Z_scope.

Lemma par_pair : forall A B order (g : Z -> A -> A) (h : Z -> B -> B) m v,
  par order (fun ij s => (g ij (fst s), h ij (snd s))) (m, v) = (par order g m, par order h v).
Proof.
  intros A B order g h. unfold par. induction order as [|k l IH]; intros m v; [reflexivity|]. cbn [fold_left fst snd]. apply IH.
Qed.

Section FEngine.
Context (F : list C -> list C) (L nTap Clip : Z) (window : option (Z -> Qc)) (nSamps nFFT nChan Overlap nStand : Z).
Hypothesis Hc : 0 < nChan.
Hypothesis Hf : 0 < nFFT.
Context (sh : bool) (data : Z -> C) (fifo : Z -> Z) (rot : Z -> Z -> C).

Definition fok (i j : Z) : bool := clean L nTap Clip data (nSamps * i) (start L nSamps Overlap (fifo i) i j).
Definition fval (i j k : Z) : C := cmul (cscale (factor (fok i j)) (channel F L nTap window data (nSamps * i) (start L nSamps Overlap (fifo i) i j) (source nChan sh k))) (rot i k).
Definition fadr (i j k : Z) : Z := nChan * nFFT * i + nFFT * k + j.
Lemma fadr_inj : forall i j k i' j' k', 0 <= j < nFFT -> 0 <= j' < nFFT -> 0 <= k < nChan -> 0 <= k' < nChan -> fadr i j k = fadr i' j' k' -> i = i' /\ j = j' /\ k = k'.
Proof.
  unfold fadr. intros i j k i' j' k' Hj Hj' Hk Hk' E.
  assert (E1 : nFFT * (nChan * i + k) + j = nFFT * (nChan * i' + k') + j') by lia.
  assert (A : nChan * i + k = nChan * i' + k').
  { rewrite (Z.div_unique_pos (nFFT * (nChan * i + k) + j) nFFT (nChan * i + k) j) by lia. rewrite E1. symmetry. apply (Z.div_unique_pos _ _ _ j'); lia. }
  assert (B : i = i').
  { rewrite (Z.div_unique_pos (nChan * i + k) nChan i k) by lia. rewrite A. symmetry. apply (Z.div_unique_pos _ _ _ k'); lia. }
  subst i'. assert (k = k') by lia. subst k'. lia.
Qed.

Definition gstep (ij : Z) (m : mem C) : mem C :=
  let i := ij / nFFT in let j := ij mod nFFT in
  let b := clean L nTap Clip data (nSamps * i) (start L nSamps Overlap (fifo i) i j) in
  let out := channel F L nTap window data (nSamps * i) (start L nSamps Overlap (fifo i) i j) in
  let cell k := nChan * nFFT * i + nFFT * k + j in
  let set k x m := put (cell k) (cmul (cscale (factor b) x) (rot i k)) m in
  if sh then loop (nChan / 2) nChan (fun k => set k (out (k - nChan / 2))) (loop 0 (nChan / 2) (fun k => set k (out (k + nChan / 2 + nChan mod 2))) m)
  else loop 0 nChan (fun k => set k (out k)) m.
Definition vstep (ij : Z) (v : mem Z) : mem Z :=
  let i := ij / nFFT in let j := ij mod nFFT in put (nFFT * i + j) (if clean L nTap Clip data (nSamps * i) (start L nSamps Overlap (fifo i) i j) then 1 else 0) v.
Lemma compute_fengine_eq : forall order,
  compute_fengine F L nTap Clip window nSamps nFFT nChan Overlap sh data fifo rot order = (par order gstep (fun _ => c0), par order vstep (fun _ => 0)).
Proof. intro order. unfold compute_fengine. rewrite <- par_pair. reflexivity. Qed.

Lemma gstep_at : forall ij m k, 0 <= ij -> 0 <= k < nChan -> gstep ij m (fadr (ij / nFFT) (ij mod nFFT) k) = fval (ij / nFFT) (ij mod nFFT) k.
Proof.
  intros ij m k Hij Hk. unfold gstep. cbv zeta.
  set (i := ij / nFFT). set (j := ij mod nFFT). assert (Hj : 0 <= j < nFFT) by (apply Z.mod_pos_bound; exact Hf).
  assert (Inj : forall a b, 0 <= a < nChan -> 0 <= b < nChan -> nChan * nFFT * i + nFFT * a + j = nChan * nFFT * i + nFFT * b + j -> a = b)
    by (intros a b Ha Hb E; apply (fadr_inj i j a i j b); assumption).
  unfold fval, fok, source, fadr. fold i j.
  pose proof (Z.div_mod nChan 2 ltac:(lia)). pose proof (Z.mod_pos_bound nChan 2 ltac:(lia)).
  destruct sh.
  - destruct (Z.le_gt_cases (nChan / 2) k) as [Hh|Hh].
    + rewrite (loop_cells_at _ (nChan / 2) nChan (fun k => nChan * nFFT * i + nFFT * k + j) (fun k _ => cmul (cscale _ (channel F L nTap window data _ _ (k - nChan / 2))) (rot i k)));
        [|lia|intros a b Ha Hb; apply Inj; lia].
      do 3 f_equal. unfold shifted_bin. apply (Z.mod_unique_pos _ _ 1); lia.
    + rewrite (loop_cells_out _ (nChan / 2) nChan (fun k => nChan * nFFT * i + nFFT * k + j) (fun k _ => cmul (cscale _ (channel F L nTap window data _ _ (k - nChan / 2))) (rot i k)));
        [|intros a Ha E; apply Inj in E; lia].
      rewrite (loop_cells_at _ 0 (nChan / 2) (fun k => nChan * nFFT * i + nFFT * k + j) (fun k _ => cmul (cscale _ (channel F L nTap window data _ _ (k + nChan / 2 + nChan mod 2))) (rot i k)));
        [|lia|intros a b Ha Hb; apply Inj; lia].
      do 3 f_equal. unfold shifted_bin. apply (Z.mod_unique_pos _ _ 0); lia.
  - apply (loop_cells_at _ 0 nChan (fun k => nChan * nFFT * i + nFFT * k + j) (fun k _ => cmul (cscale _ (channel F L nTap window data _ _ k)) (rot i k)));
        [lia|intros a b Ha Hb; apply Inj; lia].
Qed.
Lemma gstep_out : forall ij m x, (forall k, 0 <= k < nChan -> x <> fadr (ij / nFFT) (ij mod nFFT) k) -> gstep ij m x = m x.
Proof.
  intros ij m x H. unfold gstep. cbv zeta. unfold fadr in H.
  set (i := ij / nFFT) in *. set (j := ij mod nFFT) in *.
  pose proof (Z.div_mod nChan 2 ltac:(lia)). pose proof (Z.mod_pos_bound nChan 2 ltac:(lia)).
  destruct sh.
  - rewrite (loop_cells_out _ (nChan / 2) nChan (fun k => nChan * nFFT * i + nFFT * k + j) (fun k _ => cmul (cscale _ (channel F L nTap window data _ _ (k - nChan / 2))) (rot i k)));
        [|intros a Ha; apply H; lia].
    apply (loop_cells_out _ 0 (nChan / 2) (fun k => nChan * nFFT * i + nFFT * k + j) (fun k _ => cmul (cscale _ (channel F L nTap window data _ _ (k + nChan / 2 + nChan mod 2))) (rot i k)));
        intros a Ha; apply H; lia.
  - apply (loop_cells_out _ 0 nChan (fun k => nChan * nFFT * i + nFFT * k + j) (fun k _ => cmul (cscale _ (channel F L nTap window data _ _ k)) (rot i k))); intros a Ha; apply H; lia.
Qed.

Lemma ij_of : forall i j, 0 <= j < nFFT -> (i * nFFT + j) / nFFT = i /\ (i * nFFT + j) mod nFFT = j.
Proof. intros i j Hj. split; [symmetry; apply (Z.div_unique_pos _ _ _ j); lia|symmetry; apply (Z.mod_unique_pos _ _ i); lia]. Qed.

Lemma fengine_data : forall order i j k, Permutation order (range 0 (nStand * nFFT)) -> 0 <= i < nStand -> 0 <= j < nFFT -> 0 <= k < nChan ->
  fst (compute_fengine F L nTap Clip window nSamps nFFT nChan Overlap sh data fifo rot order) (fadr i j k) = fval i j k.
Proof.
  intros order i j k Ho Hi Hj Hk. rewrite compute_fengine_eq. cbn [fst]. unfold par. destruct (ij_of i j Hj) as [Ei Ej].
  rewrite (separate_at gstep (fun ij x => 0 <= ij /\ exists k, 0 <= k < nChan /\ x = fadr (ij / nFFT) (ij mod nFFT) k) _ _ (i * nFFT + j)).
  - pose proof (gstep_at (i * nFFT + j) (fun _ => c0) k ltac:(nia) Hk) as G. rewrite Ei, Ej in G. exact G.
  - apply (Permutation_NoDup (Permutation_sym Ho)). apply range_NoDup.
  - apply (Permutation_in _ (Permutation_sym Ho)). apply range_in. nia.
  - split; [nia|]. exists k. rewrite Ei, Ej. auto.
  - intros ij Hij m x H. apply (Permutation_in _ Ho) in Hij. apply range_in in Hij. apply gstep_out. intros q Hq E. apply H. split; [lia|]. exists q. auto.
  - intros ij Hij m1 m2 H x (H0 & q & Hq & ->). rewrite !gstep_at by assumption. reflexivity.
  - intros a b x _ _ (Ha & k1 & Hk1 & ->) (Hb & k2 & Hk2 & E).
    destruct (fadr_inj _ _ _ _ _ _ (Z.mod_pos_bound a nFFT Hf) (Z.mod_pos_bound b nFFT Hf) Hk1 Hk2 E) as (E1 & E2 & _).
    rewrite (Z.div_mod a nFFT) by lia. rewrite (Z.div_mod b nFFT) by lia. rewrite E1, E2. reflexivity.
Qed.
Lemma fengine_valid : forall order i j, Permutation order (range 0 (nStand * nFFT)) -> 0 <= i < nStand -> 0 <= j < nFFT ->
  snd (compute_fengine F L nTap Clip window nSamps nFFT nChan Overlap sh data fifo rot order) (i * nFFT + j) = if fok i j then 1 else 0.
Proof.
  intros order i j Ho Hi Hj. rewrite compute_fengine_eq. cbn [snd]. unfold par. destruct (ij_of i j Hj) as [Ei Ej].
  assert (Own : forall ij, nFFT * (ij / nFFT) + ij mod nFFT = ij) by (intro ij; rewrite <- Z.div_mod by lia; reflexivity).
  rewrite (separate_at vstep (fun ij x => x = ij) _ _ (i * nFFT + j)).
  - unfold vstep, put. cbv zeta. rewrite Own, Z.eqb_refl. rewrite Ei, Ej. reflexivity.
  - apply (Permutation_NoDup (Permutation_sym Ho)). apply range_NoDup.
  - apply (Permutation_in _ (Permutation_sym Ho)). apply range_in. nia.
  - reflexivity.
  - intros ij Hij m x H. unfold vstep, put. cbv zeta. rewrite Own. destruct (Z.eqb_spec x ij); [contradiction|reflexivity].
  - intros ij Hij m1 m2 H x ->. unfold vstep, put. cbv zeta. rewrite Own, Z.eqb_refl. reflexivity.
  - intros a b x _ _ -> ->. reflexivity.
Qed.
End FEngine.

(** ** Baselines *)
Lemma mapper_pairs : forall n, mapper n = pair_list true n.
Proof.
  intro n. unfold mapper, pair_list. rewrite upto_range. induction (range 0 n) as [|i l IH]; [reflexivity|]. cbn [flat_map]. rewrite IH, upto_range. reflexivity.
Qed.
Lemma pair_list_in : forall auto n i j, In (i, j) (pair_list auto n) <-> 0 <= i /\ (if auto then i else i + 1) <= j < n.
Proof.
  intros auto n i j. unfold pair_list. rewrite upto_range, in_flat_map. split.
  - intros (a & Ha & H). rewrite upto_range in H. apply range_in in Ha. apply in_map_iff in H. destruct H as (b & E & Hb). apply range_in in Hb. inversion E; subst. destruct auto; lia.
  - intro H. exists i. rewrite upto_range. split; [apply range_in; destruct auto; lia|]. apply in_map_iff. exists j. split; [reflexivity|]. apply range_in. lia.
Qed.

(** ** X engine *)
Section XEngine.
Context (nStand nChan nFFT : Z).
Hypothesis Hc : 0 < nChan.
Lemma dotc_total : forall N (X Y : Z -> C), dotc N X Y = total_c (map (fun f => times_conj (Y f) (X f)) (range 0 N)).
Proof.
  intros N X Y. unfold dotc. destruct (Z.le_gt_cases N 0) as [H|H]; [rewrite loop_nil, range_nil by lia; reflexivity|].
  apply (loop_ind _ (fun k acc => acc = total_c (map (fun f => times_conj (Y f) (X f)) (range 0 k)))); [lia|rewrite range_nil by lia; reflexivity|].
  intros k s Hk ->. rewrite range_snoc by lia. rewrite map_app, total_c_app. f_equal. cbn [map total_c]. change plus with cadd.
  destruct (X k) as [a b], (Y k) as [c d]. unfold cmul, conj, times_conj, cadd. cbn [fst snd]. f_equal; ring.
Qed.
Lemma xengine2_at : forall d1 d2 v1 v2 order b c, Permutation order (range 0 (zlen (mapper nStand))) -> 0 <= b < zlen (mapper nStand) -> 0 <= c < nChan ->
  xengine2 nStand nChan nFFT d1 d2 v1 v2 order (b * nChan + c) =
  let '(s1, s2) := znth (0, 0) b (mapper nStand) in cdiv (product nChan nFFT d1 d2 s1 s2 c) (act_vis nFFT v1 v2 s1 s2).
Proof.
  intros d1 d2 v1 v2 order b c Ho Hb Hk. unfold xengine2, par.
  assert (At : forall b m c, 0 <= c < nChan -> xengine2_step nStand nChan nFFT d1 d2 v1 v2 b m (b * nChan + c) =
    let '(s1, s2) := znth (0, 0) b (mapper nStand) in cdiv (product nChan nFFT d1 d2 s1 s2 c) (act_vis nFFT v1 v2 s1 s2)).
  { intros b' m c' Hc'. unfold xengine2_step. destruct (znth (0, 0) b' (mapper nStand)) as [s1 s2]. cbv zeta.
    apply (loop_cells_at _ 0 nChan (fun c => b' * nChan + c) (fun c _ => cdiv (product nChan nFFT d1 d2 s1 s2 c) (act_vis nFFT v1 v2 s1 s2))); [exact Hc'|intros; lia]. }
  rewrite (separate_at (xengine2_step nStand nChan nFFT d1 d2 v1 v2) (fun b x => b * nChan <= x < b * nChan + nChan) _ _ b).
  - apply At. exact Hk.
  - apply (Permutation_NoDup (Permutation_sym Ho)). apply range_NoDup.
  - apply (Permutation_in _ (Permutation_sym Ho)). apply range_in. exact Hb.
  - lia.
  - intros b' _ m x H. unfold xengine2_step. destruct (znth (0, 0) b' (mapper nStand)) as [s1 s2]. cbv zeta.
    apply (loop_cells_out _ 0 nChan (fun c => b' * nChan + c) (fun c _ => cdiv (product nChan nFFT d1 d2 s1 s2 c) (act_vis nFFT v1 v2 s1 s2))). intros; lia.
  - intros b' _ m1 m2 H x Hx. replace x with (b' * nChan + (x - b' * nChan)) by lia. rewrite !At by lia. reflexivity.
  - intros a a' x _ _ H1 H2. nia.
Qed.
Lemma act_vis_count : forall v1 v2 s1 s2 (b1 b2 : Z -> bool), (forall f, 0 <= f < nFFT -> v1 (s1 * nFFT + f) = if b1 f then 1 else 0) ->
  (forall f, 0 <= f < nFFT -> v2 (s2 * nFFT + f) = if b2 f then 1 else 0) ->
  act_vis nFFT v1 v2 s1 s2 = zlen (filter (fun f => b1 f && b2 f) (range 0 nFFT)).
Proof.
  intros v1 v2 s1 s2 b1 b2 H1 H2. unfold act_vis. destruct (Z.le_gt_cases nFFT 0) as [H|H]; [rewrite loop_nil, range_nil by lia; reflexivity|].
  apply (loop_ind _ (fun k n => k <= nFFT -> n = zlen (filter (fun f => b1 f && b2 f) (range 0 k)))); [lia|rewrite range_nil by lia; reflexivity| |lia].
  intros k s Hk IH Hk2. rewrite IH by lia. rewrite range_snoc by lia. rewrite filter_app, zlen_app, H1, H2 by lia. cbn [filter]. destruct (b1 k), (b2 k); reflexivity.
Qed.
End XEngine.
