(** The spectrometer kernels. *)
From Coq Require Import List ZArith QArith Qcanon Bool Lia Permutation.
From Verif Require Import LibList M_Base P_Base M_Corr S_Corr P_Corr.
Import ListNotations.
Open Scope Z_scope.

Definition oadd (o : option Qc) (v : Qc) : option Qc := match o with Some x => Some (x + v)%Qc | None => None end.
Lemma oadd_0 : forall o, oadd o 0 = o. Proof. intros [x|]; [cbn; f_equal; ring|reflexivity]. Qed.
Lemma oadd_oadd : forall o a b, oadd (oadd o a) b = oadd o (a + b)%Qc. Proof. intros [x|] a b; [cbn; f_equal; ring|reflexivity]. Qed.
Lemma add_at : forall a v m, add a v m a = oadd (m a) v.
Proof. intros. unfold add, put. rewrite Z.eqb_refl. reflexivity. Qed.
Lemma add_out : forall a v m x, x <> a -> add a v m x = m x.
Proof. intros. unfold add, put. destruct (Z.eqb_spec x a); [contradiction|reflexivity]. Qed.

Lemma accumulate : forall n (body : Z -> mem (option Qc) -> mem (option Qc)) (b : Z -> bool) (inc : Z -> Qc) m x, 0 <= n ->
  (forall j m, 0 <= j < n -> body j m x = oadd (m x) (inc j)) ->
  fst (loop 0 n (fun j s => (body j (fst s), if b j then snd s + 1 else snd s)) (m, 0)) x = oadd (m x) (total (map inc (range 0 n))).
Proof.
  intros n body b inc m x Hn H.
  apply (loop_ind _ (fun j s => fst s x = oadd (m x) (total (map inc (range 0 j))))); [lia|rewrite range_nil by lia; symmetry; apply oadd_0|].
  intros j [s c] Hj IH. cbn [fst snd] in *. rewrite H, IH by lia. rewrite oadd_oadd. f_equal. rewrite range_snoc by lia. rewrite map_app, total_app. cbn [map total]. ring.
Qed.
Lemma accumulate_out : forall n (body : Z -> mem (option Qc) -> mem (option Qc)) (b : Z -> bool) m x,
  (forall j m, 0 <= j < n -> body j m x = m x) ->
  fst (loop 0 n (fun j s => (body j (fst s), if b j then snd s + 1 else snd s)) (m, 0)) x = m x.
Proof.
  intros n body b m x H. destruct (Z.le_gt_cases n 0); [rewrite loop_nil by lia; reflexivity|].
  apply (loop_ind _ (fun j s => fst s x = m x)); [lia|reflexivity|].
  intros j [s c] Hj IH. cbn [fst snd] in *. rewrite H by lia. exact IH.
Qed.
Lemma accumulate_count : forall n (body : Z -> mem (option Qc) -> mem (option Qc)) (b : Z -> bool) m, 0 <= n ->
  snd (loop 0 n (fun j s => (body j (fst s), if b j then snd s + 1 else snd s)) (m, 0)) = zlen (filter b (range 0 n)).
Proof.
  intros n body b m Hn.
  apply (loop_ind _ (fun j s => snd s = zlen (filter b (range 0 j)))); [lia|rewrite range_nil by lia; reflexivity|].
  intros j [s c] Hj IH. cbn [fst snd] in *. rewrite range_snoc by lia. rewrite filter_app, zlen_app, IH. cbn [filter]. destruct (b j); cbn; lia.
Qed.

Section Kernel.
Context (L nChan : Z).
Hypothesis Hc : 0 < nChan.

Definition source (shifted : bool) (k : Z) : Z := if shifted then shifted_bin nChan k else k.
Lemma source_range : forall sh k, 0 <= k < nChan -> 0 <= source sh k < nChan.
Proof. intros sh k Hk. unfold source, shifted_bin. destruct sh; [apply Z.mod_pos_bound; lia|lia]. Qed.
Lemma shift_at : forall a m k, 0 <= k < nChan -> shift nChan a m (a + k) = m (a + shifted_bin nChan k).
Proof.
  intros a m k Hk. unfold shift, shifted_bin. cbv zeta.
  assert (E1 := Z.div_mod nChan 2 ltac:(lia)). assert (E2 := Z.mod_pos_bound nChan 2 ltac:(lia)).
  set (h := nChan / 2) in *. set (r := nChan mod 2) in *. clearbody h r.
  destruct (Z.le_gt_cases h k) as [H|H].
  - replace ((a + h <=? a + k) && (a + k <? a + h + (h + r))) with true by lia. 
    replace ((k + nChan - h) mod nChan) with (k - h); [f_equal; lia|]. apply (Z.mod_unique_pos _ _ 1); lia.
  - replace ((a + h <=? a + k) && (a + k <? a + h + (h + r))) with false by lia.
    replace ((a <=? a + k) && (a + k <? a + h)) with true by lia. f_equal. rewrite Z.mod_small by lia. lia.
Qed.
Lemma shift_out : forall a m x, ~ (a <= x < a + nChan) -> shift nChan a m x = m x.
Proof.
  intros a m x H. unfold shift. cbv zeta.
  assert (E1 := Z.div_mod nChan 2 ltac:(lia)). assert (E2 := Z.mod_pos_bound nChan 2 ltac:(lia)).
  set (h := nChan / 2) in *. set (r := nChan mod 2) in *. clearbody h r.
  replace ((a + h <=? x) && (x <? a + h + (h + r))) with false by lia.
  replace ((a <=? x) && (x <? a + h)) with false by lia. reflexivity.
Qed.
Definition maybe_shift (sh : bool) (a : Z) (m : mem (option Qc)) := if sh then shift nChan a m else m.
Lemma maybe_shift_at : forall sh a m k, 0 <= k < nChan -> maybe_shift sh a m (a + k) = m (a + source sh k).
Proof. intros sh a m k Hk. unfold maybe_shift, source. destruct sh; [apply shift_at; exact Hk|reflexivity]. Qed.
Lemma maybe_shift_out : forall sh a m x, ~ (a <= x < a + nChan) -> maybe_shift sh a m x = m x.
Proof. intros sh a m x H. unfold maybe_shift. destruct sh; [apply shift_out; exact H|reflexivity]. Qed.

Definition divided (nAct : Z) (o : option Qc) : option Qc :=
  if nAct =? 0 then None else match o with Some x => Some (x / qz (L * nAct))%Qc | None => None end.
Lemma scale_at : forall a nAct m k, 0 <= k < nChan -> scale L nChan a nAct m (a + k) = divided nAct (m (a + k)).
Proof.
  intros a nAct m k Hk. unfold scale. apply (loop_cells_at _ 0 nChan (fun k => a + k) (fun _ o => divided nAct o)); [exact Hk|]. intros; lia.
Qed.
Lemma scale_out : forall a nAct m x, ~ (a <= x < a + nChan) -> scale L nChan a nAct m x = m x.
Proof.
  intros a nAct m x Hx. unfold scale. apply (loop_cells_out _ 0 nChan (fun k => a + k) (fun _ o => divided nAct o)). intros; lia.
Qed.

Context (F : list C -> list C) (nTap Clip : Z) (window : option (Z -> Qc)) (nSamps nFFT Overlap : Z).

(** One stand: the cells of its row. *)
Definition spec_cell (data : Z -> C) (i b : Z) (o : option Qc) : option Qc :=
  let ok j := clean L nTap Clip data (nSamps * i) (start L nSamps Overlap 0 i j) in
  divided (zlen (filter ok (range 0 nFFT)))
    (oadd o (total (map (fun j => factor (ok j) * abs2 (channel F L nTap window data (nSamps * i) (start L nSamps Overlap 0 i j) b))%Qc (range 0 nFFT)))).
Lemma spec_stand_out : forall sh data i m x, ~ (nChan * i <= x < nChan * i + nChan) ->
  spec_stand F L nTap Clip window nSamps nFFT nChan Overlap sh data i m x = m x.
Proof.
  intros sh data i m x H. unfold spec_stand. cbv zeta.
  match goal with |- (let '(_, _) := ?t in _) _ = _ => destruct t as [m1 c1] eqn:E end.
  rewrite scale_out by exact H. fold (maybe_shift sh (nChan * i) m1). rewrite maybe_shift_out by exact H.
  change m1 with (fst (m1, c1)). rewrite <- E.
  apply (accumulate_out nFFT (fun j m => loop 0 nChan (fun k m => add (nChan * i + k) _ m) m) _ m x).
  intros j m' Hj. apply (loop_cells_out _ 0 nChan (fun k => nChan * i + k) (fun k o => oadd o _)). intros; lia.
Qed.
Lemma spec_stand_at : forall sh data i m k, 0 <= nFFT -> 0 <= k < nChan ->
  spec_stand F L nTap Clip window nSamps nFFT nChan Overlap sh data i m (nChan * i + k) =
  spec_cell data i (source sh k) (m (nChan * i + source sh k)).
Proof.
  intros sh data i m k Hn Hk. unfold spec_stand. cbv zeta.
  match goal with |- (let '(_, _) := ?t in _) _ = _ => destruct t as [m1 c1] eqn:E end.
  rewrite scale_at by exact Hk. fold (maybe_shift sh (nChan * i) m1). rewrite maybe_shift_at by exact Hk.
  unfold spec_cell. cbv zeta. f_equal.
  - change c1 with (snd (m1, c1)). rewrite <- E. 
    apply (accumulate_count nFFT (fun j m => loop 0 nChan (fun k m => add (nChan * i + k) _ m) m) _ m Hn).
  - change m1 with (fst (m1, c1)). rewrite <- E.
    apply (accumulate nFFT (fun j m => loop 0 nChan (fun k m => add (nChan * i + k) _ m) m)); [exact Hn|].
    intros j m' Hj. apply (loop_cells_at _ 0 nChan (fun k => nChan * i + k) (fun k o => oadd o _)); [apply source_range; exact Hk|]. intros; lia.
Qed.
Lemma compute_spec_at : forall sh data order nStand i k, 0 <= nFFT -> Permutation order (range 0 nStand) -> 0 <= i < nStand -> 0 <= k < nChan ->
  compute_spec F L nTap Clip window nSamps nFFT nChan Overlap sh data order (nChan * i + k) = spec_cell data i (source sh k) (Some 0%Qc).
Proof.
  intros sh data order nStand i k Hn Hp Hi Hk. unfold compute_spec, par.
  rewrite (separate_at (spec_stand F L nTap Clip window nSamps nFFT nChan Overlap sh data) (fun i x => nChan * i <= x < nChan * i + nChan) _ _ i).
  - rewrite spec_stand_at by assumption. reflexivity.
  - apply (Permutation_NoDup (Permutation_sym Hp)). apply range_NoDup.
  - apply (Permutation_in _ (Permutation_sym Hp)). apply range_in. exact Hi.
  - lia.
  - intros j _ m x H. apply spec_stand_out. exact H.
  - intros j _ m m' H x Hx. replace x with (nChan * j + (x - nChan * j)) by lia. rewrite !spec_stand_at by lia. f_equal. apply H.
    assert (R := source_range sh (x - nChan * j) ltac:(lia)). lia.
  - intros a b x _ _ Ha Hb. nia.
Qed.
End Kernel.

(** ** The number of transforms *)
Lemma count_exact : forall n fifo L Ov step, 0 < Ov -> 0 < step -> L = step * Ov -> 0 <= n - fifo ->
  count_ffts n fifo L Ov = Some ((n - fifo) / step - Ov + 1).
Proof.
  intros n fifo L Ov step H1 H2 -> H3. unfold count_ffts. destruct (Z.eqb_spec Ov 0); [lia|].
  rewrite Z.quot_mul by lia. destruct (Z.eqb_spec step 0); [lia|]. rewrite (Z.mul_comm step Ov), Z.quot_mul by lia.
  rewrite Z.quot_div_nonneg by lia. reflexivity.
Qed.
Lemma count_windows : forall n L step Ov, 0 < Ov -> 0 < step -> L = step * Ov -> 0 <= n ->
  Z.max 0 (n / step - Ov + 1) = (if n <? L then 0 else (n - L) / step + 1).
Proof.
  intros n L step Ov H1 H2 -> Hn. destruct (Z.ltb_spec n (step * Ov)) as [H|H].
  - assert (n / step < Ov) by (apply Z.div_lt_upper_bound; lia). lia.
  - replace (n - step * Ov) with (n + (- Ov) * step) by lia. rewrite Z.div_add by lia.
    assert (Ov <= n / step) by (apply Z.div_le_lower_bound; lia). lia.
Qed.
