(** Lemmas on the beam former. *)
From Coq Require Import List ZArith QArith Qcanon Bool Lia.
From Verif Require Import LibList M_Py M_Base M_Corr M_CorrPy S_Corr P_Corr M_Beam S_Beam.
Import ListNotations.
Open Scope Z_scope.

Section Engine.
Context (nInput nChan nTime : Z) (coeffs data : mem C) (valid0 valid1 : Z -> bool) (HI : 0 <= nInput) (HC : 0 <= nChan) (HT : 0 <= nTime).
Notation gather := (gather nInput nChan nTime coeffs data valid0 valid1).
Notation time_block := (time_block nInput nChan nTime coeffs data valid0 valid1).
Notation bengine := (bengine nInput nChan nTime coeffs data valid0 valid1).
Definition inp (c t i : Z) : C := cmul (coeffs (i * nChan + c)) (data (i * nChan * nTime + c * nTime + t)).
Definition sum_to (valid : Z -> bool) (c t n : Z) : C := total_c (map (fun i => cscale (factor (valid i)) (inp c t i)) (range 0 n)).
Lemma sum_to_snoc valid c t n : 0 <= n -> sum_to valid c t (n + 1) = cadd (sum_to valid c t n) (cscale (factor (valid n)) (inp c t n)).
Proof. intro H. unfold sum_to. rewrite range_snoc, map_app, total_c_app by lia. cbn [map total_c]. change plus with cadd. f_equal. apply cadd_0_r. Qed.
Lemma gather_spec c t bn tb : 0 <= tb < bn -> fst (gather c t bn) tb = sum_to valid0 c (t + tb) nInput /\ snd (gather c t bn) tb = sum_to valid1 c (t + tb) nInput.
Proof.
  intro B. unfold M_Beam.gather.
  apply (loop_ind _ (fun n s => forall tb, 0 <= tb < bn -> fst s tb = sum_to valid0 c (t + tb) n /\ snd s tb = sum_to valid1 c (t + tb) n) 0 nInput); try lia.
  - intros. split; reflexivity.
  - clear tb B. intros i s Hi IH tb B.
    assert (G := loop_ind _ (fun k s' => forall x, (0 <= x < k -> fst s' x = sum_to valid0 c (t + x) (i + 1) /\ snd s' x = sum_to valid1 c (t + x) (i + 1)) /\ (k <= x < bn -> fst s' x = fst s x /\ snd s' x = snd s x))
      0 bn (fun tb s => let '(p0, p1) := s in
      let inp := cmul (coeffs (i * nChan + c)) (data (i * nChan * nTime + c * nTime + t + tb)) in
      (put tb (cadd (p0 tb) (cscale (factor (valid0 i)) inp)) p0, put tb (cadd (p1 tb) (cscale (factor (valid1 i)) inp)) p1)) s ltac:(lia)).
    cbv beta in G. destruct G with (x := tb) as [G1 _].
    + intros x. split; [lia|]. intros _. split; reflexivity.
    + clear tb B. intros k [p0 p1] Hk IK x. cbv beta iota zeta in *. cbn [fst snd] in *. unfold put. split.
      * intro Hx. destruct (x =? k) eqn:E.
        -- apply Z.eqb_eq in E. subst x. destruct (IK k) as [_ IK2]. destruct (IK2 ltac:(lia)) as [I1 I2]. destruct (IH k ltac:(lia)) as [J1 J2].
           rewrite I1, I2, J1, J2, !sum_to_snoc by lia. unfold inp. replace (i * nChan * nTime + c * nTime + (t + k)) with (i * nChan * nTime + c * nTime + t + k) by lia. split; reflexivity.
        -- apply Z.eqb_neq in E. destruct (IK x) as [IK1 _]. apply IK1. lia.
      * intro Hx. destruct (x =? k) eqn:E; [apply Z.eqb_eq in E; lia|]. destruct (IK x) as [_ IK2]. apply IK2. lia.
    + apply G1. lia.
Qed.
Definition valid (p : Z) : Z -> bool := if p =? 0 then valid0 else valid1.
Definition cell (p c t : Z) : Z := p * nChan * nTime + c * nTime + t.
Definition val (p c t : Z) : C := cscale (inverse (norm_of nInput (valid p))) (sum_to (valid p) c t nInput).
Lemma cell_inj p c t p' c' t' : 0 <= p < 2 -> 0 <= p' < 2 -> 0 <= c < nChan -> 0 <= c' < nChan -> 0 <= t < nTime -> 0 <= t' < nTime ->
  cell p c t = cell p' c' t' -> p = p' /\ c = c' /\ t = t'.
Proof.
  intros P P' C C' T T' H. unfold cell in H.
  assert (A : (p * nChan + c) * nTime + t = (p' * nChan + c') * nTime + t') by lia.
  assert (B : p * nChan + c = p' * nChan + c') by nia. assert (t = t') by nia. assert (p = p') by nia. subst. lia.
Qed.
Definition writes (c lo hi x : Z) : Prop := exists p t, 0 <= p < 2 /\ lo <= t < hi /\ x = cell p c t.
Lemma time_block_spec c t m : 0 <= c < nChan -> 0 <= t <= nTime ->
  let hi := t + Z.min TIME_BLOCK_DIM (nTime - t) in
  (forall p t', 0 <= p < 2 -> t <= t' < hi -> time_block c t m (cell p c t') = val p c t') /\ (forall x, ~ writes c t hi x -> time_block c t m x = m x).
Proof.
  intros C T. cbv zeta. unfold M_Beam.time_block. set (bn := Z.min TIME_BLOCK_DIM (nTime - t)). assert (Hb : 0 <= bn <= nTime - t) by (unfold bn, TIME_BLOCK_DIM; lia).
  assert (G := loop_ind _ (fun k m' => (forall p t', 0 <= p < 2 -> t <= t' < t + k -> m' (cell p c t') = val p c t') /\ (forall x, ~ writes c t (t + k) x -> m' x = m x)) 0 bn
    (fun tb m => put (nChan * nTime + c * nTime + (t + tb)) (cscale (inverse (norm_of nInput valid1)) (snd (gather c t bn) tb))
                            (put (c * nTime + (t + tb)) (cscale (inverse (norm_of nInput valid0)) (fst (gather c t bn) tb)) m)) m ltac:(lia)).
  apply G; clear G.
  - split; [intros; lia|reflexivity].
  - intros k m' Hk [I1 I2]. destruct (gather_spec c t bn k ltac:(lia)) as [G0 G1]. rewrite G0, G1.
    assert (E1 : nChan * nTime + c * nTime + (t + k) = cell 1 c (t + k)) by (unfold cell; lia).
    assert (E0 : c * nTime + (t + k) = cell 0 c (t + k)) by (unfold cell; lia).
    rewrite E1, E0. unfold put. split.
    + intros p t' P T'. destruct (cell p c t' =? cell 1 c (t + k)) eqn:Q1.
      * apply Z.eqb_eq in Q1. apply cell_inj in Q1; try lia. destruct Q1 as (-> & _ & ->). reflexivity.
      * destruct (cell p c t' =? cell 0 c (t + k)) eqn:Q0.
        -- apply Z.eqb_eq in Q0. apply cell_inj in Q0; try lia. destruct Q0 as (-> & _ & ->). reflexivity.
        -- apply I1; [exact P|]. apply Z.eqb_neq in Q0, Q1. assert (t' <> t + k); [|lia]. intros ->. assert (p = 0 \/ p = 1) as [->| ->] by lia; congruence.
    + intros x N. destruct (x =? cell 1 c (t + k)) eqn:Q1; [exfalso; apply Z.eqb_eq in Q1; apply N; exists 1, (t + k); lia|].
      destruct (x =? cell 0 c (t + k)) eqn:Q0; [exfalso; apply Z.eqb_eq in Q0; apply N; exists 0, (t + k); lia|].
      apply I2. intros (p & t' & P & T' & E). apply N. exists p, t'. lia.
Qed.
Theorem bengine_spec p c t : 0 <= p < 2 -> 0 <= c < nChan -> 0 <= t < nTime -> bengine (cell p c t) = val p c t.
Proof.
  unfold M_Beam.bengine. intros P C T. set (nB := (nTime + TIME_BLOCK_DIM - 1) / TIME_BLOCK_DIM).
  assert (HB : nB * 32 >= nTime /\ (nB - 1) * 32 < nTime) by (unfold nB, TIME_BLOCK_DIM; assert (D := Z.div_mod (nTime + 32 - 1) 32 ltac:(lia)); assert (M := Z.mod_pos_bound (nTime + 32 - 1) 32 ltac:(lia)); lia).
  assert (HB0 : 0 <= nB) by (apply Z.div_pos; unfold TIME_BLOCK_DIM; lia). clearbody nB.
  revert P C T. revert p c t.
  enough (G : forall p c t, 0 <= p < 2 -> 0 <= c < nChan -> 0 <= t < nTime -> loop 0 nChan (fun c m => loop 0 nB (fun b m => time_block c (b * TIME_BLOCK_DIM) m) m) (fun _ => c0) (cell p c t) = val p c t) by exact G.
  intros p c t P C T. revert p c t P C T.
  assert (G := loop_ind _ (fun n m' => forall p c t, 0 <= p < 2 -> 0 <= c < n -> 0 <= t < nTime -> m' (cell p c t) = val p c t) 0 nChan
    (fun c m => loop 0 nB (fun b m => time_block c (b * TIME_BLOCK_DIM) m) m) (fun _ => c0) HC).
  apply G; [intros; lia|]. clear G. intros c m Hc IH.
  assert (G := loop_ind _ (fun b m' => (forall p t, 0 <= p < 2 -> 0 <= t < Z.min nTime (b * 32) -> m' (cell p c t) = val p c t) /\ (forall x, ~ writes c 0 nTime x -> m' x = m x)) 0 nB
    (fun b m => time_block c (b * TIME_BLOCK_DIM) m) m HB0).
  cbv beta in G. destruct G as [G1 G2].
  - split; [intros; lia|reflexivity].
  - intros b m' Hb [I1 I2]. unfold TIME_BLOCK_DIM in *. destruct (time_block_spec c (b * 32) m' Hc ltac:(lia)) as [B1 B2]. cbv zeta in B1, B2. unfold TIME_BLOCK_DIM in B1, B2. split.
    + intros p t P T. destruct (Z_lt_dec t (b * 32)) as [L|L].
      * rewrite B2; [apply I1; lia|]. intros (p' & t' & P' & T' & E). apply cell_inj in E; lia.
      * apply B1; lia.
    + intros x N. rewrite B2; [apply I2, N|]. intros (p' & t' & P' & T' & E). apply N. exists p', t'. lia.
  - intros p c' t P C T. destruct (Z.eq_dec c' c) as [->|N]; [apply G1; lia|].
    rewrite G2; [apply IH; lia|]. intros (p' & t' & P' & T' & E). apply cell_inj in E; lia.
Qed.
Lemma norm_count v : norm_of nInput v = zlen (filter v (range 0 nInput)).
Proof.
  unfold norm_of. apply (loop_ind _ (fun n s => s = zlen (filter v (range 0 n))) 0 nInput); try lia; [reflexivity|].
  intros k s Hk ->. rewrite range_snoc, filter_app by lia. cbn [filter]. unfold zlen. rewrite app_length. destruct (v k); cbn [length]; lia.
Qed.
End Engine.
Lemma total_c_filter {A} (b : A -> bool) (f : A -> C) l : total_c (map (fun i => cscale (factor (b i)) (f i)) l) = total_c (map f (filter b l)).
Proof.
  induction l as [|x l IH]; [reflexivity|]. cbn [map total_c filter]. change plus with cadd. rewrite IH. destruct (b x); cbn [factor].
  - cbn [map total_c]. change plus with cadd. f_equal. unfold cscale. destruct (f x). cbn. f_equal; ring.
  - replace (cscale 0 (f x)) with c0 by (unfold cscale, c0; f_equal; ring). apply cadd_0_l.
Qed.
Lemma mean_scaled l : cscale (inverse (zlen l)) (total_c l) = mean_or_0 l.
Proof.
  unfold mean_or_0, mean_c, inverse. destruct l as [|x l]; [unfold cscale; cbn; f_equal; ring|].
  assert (H : 0 <? zlen (x :: l) = true) by (apply Z.ltb_lt; unfold zlen; cbn [length]; lia). rewrite H. unfold cscale, qz, num, Qcdiv. f_equal; ring.
Qed.
Theorem bengine_mean nInput nChan nTime coeffs data valid0 valid1 p c t : 0 <= nInput -> 0 <= nChan -> 0 <= nTime -> 0 <= p < 2 -> 0 <= c < nChan -> 0 <= t < nTime ->
  bengine nInput nChan nTime coeffs data valid0 valid1 (p * nChan * nTime + c * nTime + t)
  = mean_or_0 (map (fun i => cmul (coeffs (i * nChan + c)) (data (i * nChan * nTime + c * nTime + t))) (filter (if p =? 0 then valid0 else valid1) (range 0 nInput))).
Proof.
  intros HI HC HT P Hc Ht. assert (B := bengine_spec nInput nChan nTime coeffs data valid0 valid1 HI HC HT p c t P Hc Ht). unfold cell in B. rewrite B.
  unfold val, sum_to. rewrite norm_count by assumption. rewrite total_c_filter, <- mean_scaled. unfold valid, inp. f_equal. f_equal. unfold zlen. rewrite map_length. reflexivity.
Qed.

(** The delays *)
Lemma fold_vadd l s : fold_left (fun s a => vadd s (b_xyz a)) l s
  = (let '(a, b, c) := s in ((a + total (map (fun p => fst (fst p)) (map b_xyz l)))%Qc, (b + total (map (fun p => snd (fst p)) (map b_xyz l)))%Qc, (c + total (map snd (map b_xyz l)))%Qc)).
Proof.
  revert s. induction l as [|x l IH]; intros [[a b] c]; cbn [fold_left map total]; [f_equal; [f_equal|]; ring|].
  rewrite IH. destruct (b_xyz x) as [[d e] f]. cbn [vadd fst snd]. f_equal; [f_equal|]; ring.
Qed.
Lemma centre_spec ants : centre ants = match filter (fun a => b_stand a <=? 256) ants with [] => None | l => Some (middle (map b_xyz l)) end.
Proof.
  unfold centre. destruct (filter _ ants) as [|x l] eqn:E; [reflexivity|]. f_equal. rewrite fold_vadd. unfold middle, vover, zlen. rewrite map_length. unfold qz, num, Qcdiv. f_equal; [f_equal|]; ring.
Qed.
Lemma vdot_along u v : vdot u v = along u v. Proof. reflexivity. Qed.
Lemma vsub_from u v : vsub u v = from u v. Proof. destruct u as [[a b] c], v as [[d e] f]. reflexivity. Qed.
Lemma Qle_bool_spec a b : Qle_bool a b = true <-> (a <= b)%Q. Proof. apply Qle_bool_iff. Qed.
Lemma in_range_dec az alt : (in_range az alt -> forall src c ants fr, calc_delay src c ants fr az alt = Ok (map (fun a => map (fun f =>
        match centre ants with None => None | Some m => Some (b_cable a f - vdot (src az alt) (vsub (b_xyz a) m) / c)%Qc end) fr) ants)) /\
  (~ in_range az alt -> forall src c ants fr, calc_delay src c ants fr az alt = Raise ValueError).
Proof.
  assert (B : forall a b : Qc, Qle_bool a b = true <-> (a <= b)%Qc) by (intros; unfold Qcle; apply Qle_bool_iff).
  unfold calc_delay, in_range. change 90%Q with (this (Q2Qc 90)). change 360%Q with (this (Q2Qc 360)). change 0%Q with (this (Q2Qc 0)).
  assert (B1 := B (Q2Qc 0) alt). assert (B2 := B alt (Q2Qc 90)). assert (B3 := B (Q2Qc 0) az). assert (B4 := B az (Q2Qc 360)).
  destruct (Qle_bool (Q2Qc 0) alt), (Qle_bool alt (Q2Qc 90)), (Qle_bool (Q2Qc 0) az), (Qle_bool az (Q2Qc 360)); cbn [negb orb];
    split; intros H src c ants fr; try reflexivity; exfalso;
    repeat match goal with T : _ <-> _ |- _ => destruct T end; intuition (try discriminate).
Qed.
Lemma all_some_map {A B} (f : A -> B) l : all_some (map (fun x => Some (f x)) l) = Some (map f l).
Proof. induction l as [|x l IH]; [reflexivity|]. cbn. unfold all_some in *. rewrite IH. reflexivity. Qed.
Lemma concat_nil {A} (l : list (list A)) n : (forall r, In r l -> length r = S n) -> l <> [] -> concat l <> [].
Proof. destruct l as [|r l]; [congruence|]. intros H _. specialize (H r (or_introl eq_refl)). destruct r; discriminate. Qed.
Lemma qmin_least l : forall x, least (x :: l) (qmin x l).
Proof.
  assert (B : forall a b : Qc, Qle_bool a b = true <-> (a <= b)%Qc) by (intros; unfold Qcle; apply Qle_bool_iff).
  induction l as [|y l IH]; intro x; cbn [qmin].
  - split; [left; reflexivity|]. intros z [<-|[]]. apply Qcle_refl.
  - destruct (Qle_bool x y) eqn:E.
    + apply B in E. destruct (IH x) as [I1 I2]. split; [destruct I1 as [I1|I1]; [left; exact I1|right; right; exact I1]|].
      intros z [<-|[<-|Hz]]; [apply I2; left; reflexivity| |apply I2; right; exact Hz]. eapply Qcle_trans; [apply I2; left; reflexivity|exact E].
    + assert (E' : (y <= x)%Qc) by (destruct (Qclt_le_dec x y) as [L|L]; [|exact L]; apply Qclt_le_weak, B in L; congruence).
      destruct (IH y) as [I1 I2]. split; [destruct I1 as [I1|I1]; right; [left; exact I1|right; exact I1]|].
      intros z [<-|[<-|Hz]]; [|apply I2; left; reflexivity|apply I2; right; exact Hz]. eapply Qcle_trans; [apply I2; left; reflexivity|exact E'].
Qed.

(** The beam *)
Lemma znth_range_map {A} (d : A) (f : Z -> A) n i : 0 <= i < n -> znth d i (map f (range 0 n)) = f i.
Proof.
  intros H. unfold znth. destruct (i <? 0) eqn:E; [apply Z.ltb_lt in E; lia|].
  rewrite (nth_indep _ d (f 0)) by (rewrite map_length; unfold range; rewrite map_length, seq_length; lia). rewrite map_nth. f_equal.
  unfold range. rewrite (nth_indep _ 0 (0 + Z.of_nat 0)) by (rewrite map_length, seq_length; lia). rewrite (map_nth (fun k => 0 + Z.of_nat k)), seq_nth by lia. lia.
Qed.
