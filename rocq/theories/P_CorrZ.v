(** The Stokes X engine *)
From Coq Require Import Ascii String List ZArith QArith Qcanon Qround Bool Lia Permutation.
From Verif Require Import LibList M_Py M_Base P_Base M_Corr M_CorrPy S_Corr P_Corr P_CorrSpec P_CorrPsd P_CorrPick P_CorrF P_CorrX P_CorrFX P_CorrAl P_CorrY.
Import ListNotations.
Open Scope Z_scope.

Lemma mapper_len : forall n, 0 <= n -> zlen (mapper n) = Z.quot ((n + 1) * n) 2.
Proof.
  intros n Hn. rewrite mapper_all. pose proof (pairs_len 0 n 0 ltac:(lia) ltac:(lia)) as H. change (pairs_from 0 n 0) with (pairs 0 n) in H.
  rewrite Z.quot_div_nonneg by nia. apply (Z.div_unique_pos _ _ _ 0); lia.
Qed.

Section X3.
Context (nStand nChan nFFT : Z).
Hypothesis Hc : 0 < nChan.
Hypothesis HN : 0 <= nStand.
Context (dX dY : mem C) (vX vY : mem Z).
Let nBL := Z.quot ((nStand + 1) * nStand) 2.
Let adr (b p c : Z) : Z := p * nBL * nChan + b * nChan + c.
(** What is stored for Stokes parameter [p]. *)
Definition x3val (b p c : Z) : option C :=
  let '(s1, s2) := znth (0, 0) b (mapper nStand) in
  let n := act_vis nFFT vX vY s1 s2 in
  let xx := product nChan nFFT dX dX s1 s2 c in let yy := product nChan nFFT dY dY s1 s2 c in
  let xy := product nChan nFFT dX dY s1 s2 c in let yx := product nChan nFFT dY dX s2 s1 c in
  if p =? 0 then cdiv (cadd xx yy) n else if p =? 1 then cdiv (csub xx yy) n else if p =? 2 then cdiv (cadd xy yx) n else over_i (cdiv (csub xy yx) n).

Lemma adr_inj : forall b p c b' p' c', 0 <= b < nBL -> 0 <= b' < nBL -> 0 <= c < nChan -> 0 <= c' < nChan -> adr b p c = adr b' p' c' -> b = b' /\ p = p' /\ c = c'.
Proof.
  intros b p c b' p' c' Hb Hb' Hcc Hcc' E. unfold adr in E.
  assert (E1 : nChan * (p * nBL + b) + c = nChan * (p' * nBL + b') + c') by lia.
  assert (E2 : p * nBL + b = p' * nBL + b') by nia. assert (p = p') by nia. subst. split; [lia|]. split; [reflexivity|]. lia.
Qed.
Lemma x3_step : forall b m, 0 <= b < nBL ->
  (forall p c, 0 <= p < 4 -> 0 <= c < nChan -> xengine3_step nStand nChan nFFT dX dY vX vY b m (adr b p c) = x3val b p c) /\
  (forall x, (forall p c, 0 <= p < 4 -> 0 <= c < nChan -> x <> adr b p c) -> xengine3_step nStand nChan nFFT dX dY vX vY b m x = m x).
Proof.
  intros b m Hb. unfold xengine3_step, x3val. fold nBL. destruct (znth (0, 0) b (mapper nStand)) as [s1 s2]. cbv zeta.
  set (n := act_vis nFFT vX vY s1 s2).
  match goal with |- context [loop 0 nChan ?f m] => set (g := f) end.
  set (val := fun p c => if p =? 0 then cdiv (cadd (product nChan nFFT dX dX s1 s2 c) (product nChan nFFT dY dY s1 s2 c)) n
     else if p =? 1 then cdiv (csub (product nChan nFFT dX dX s1 s2 c) (product nChan nFFT dY dY s1 s2 c)) n
     else if p =? 2 then cdiv (cadd (product nChan nFFT dX dY s1 s2 c) (product nChan nFFT dY dX s2 s1 c)) n
     else over_i (cdiv (csub (product nChan nFFT dX dY s1 s2 c) (product nChan nFFT dY dX s2 s1 c)) n)).
  assert (S : forall c s x, g c s x = if x =? adr b 3 c then val 3 c else if x =? adr b 2 c then val 2 c else if x =? adr b 1 c then val 1 c else if x =? adr b 0 c then val 0 c else s x) by reflexivity.
  assert (P : (forall p c, 0 <= p < 4 -> 0 <= c < nChan -> c < nChan -> loop 0 nChan g m (adr b p c) = val p c) /\
     (forall x, (forall p c, 0 <= p < 4 -> 0 <= c < nChan -> x <> adr b p c) -> loop 0 nChan g m x = m x)).
  { apply (loop_ind _ (fun k s => (forall p c, 0 <= p < 4 -> 0 <= c < nChan -> c < k -> s (adr b p c) = val p c) /\
     (forall x, (forall p c, 0 <= p < 4 -> 0 <= c < nChan -> x <> adr b p c) -> s x = m x))); [lia|split; [intros; lia|reflexivity]|].
    intros k s Hk [I1 I2]. split.
    - intros p c Hp Hcc Hck. rewrite S.
      destruct (Z.eqb_spec (adr b p c) (adr b 3 k)) as [E|E3]; [apply adr_inj in E; try assumption; destruct E as (_ & -> & ->); reflexivity|].
      destruct (Z.eqb_spec (adr b p c) (adr b 2 k)) as [E|E2]; [apply adr_inj in E; try assumption; destruct E as (_ & -> & ->); reflexivity|].
      destruct (Z.eqb_spec (adr b p c) (adr b 1 k)) as [E|E1]; [apply adr_inj in E; try assumption; destruct E as (_ & -> & ->); reflexivity|].
      destruct (Z.eqb_spec (adr b p c) (adr b 0 k)) as [E|E0]; [apply adr_inj in E; try assumption; destruct E as (_ & -> & ->); reflexivity|].
      apply I1; [exact Hp|exact Hcc|]. assert (c <> k); [|lia]. intros ->. assert (p = 0 \/ p = 1 \/ p = 2 \/ p = 3) by lia. intuition congruence.
    - intros x Hx. rewrite S.
      destruct (Z.eqb_spec x (adr b 3 k)) as [E|E3]; [exfalso; apply (Hx 3 k); [lia|exact Hk|exact E]|].
      destruct (Z.eqb_spec x (adr b 2 k)) as [E|E2]; [exfalso; apply (Hx 2 k); [lia|exact Hk|exact E]|].
      destruct (Z.eqb_spec x (adr b 1 k)) as [E|E1]; [exfalso; apply (Hx 1 k); [lia|exact Hk|exact E]|].
      destruct (Z.eqb_spec x (adr b 0 k)) as [E|E0]; [exfalso; apply (Hx 0 k); [lia|exact Hk|exact E]|].
      apply I2. exact Hx. }
  destruct P as [P1 P2]. split; [|exact P2]. intros p c Hp Hcc. rewrite (P1 p c Hp Hcc) by lia. reflexivity.
Qed.
Lemma xengine3_at : forall order b p c, Permutation order (range 0 (zlen (mapper nStand))) -> 0 <= b < zlen (mapper nStand) -> 0 <= p < 4 -> 0 <= c < nChan ->
  xengine3 nStand nChan nFFT dX dY vX vY order (p * nBL * nChan + b * nChan + c) = x3val b p c.
Proof.
  intros order b p c Ho Hb Hp Hcc. unfold xengine3, par. rewrite mapper_len in Ho by exact HN. rewrite mapper_len in Hb by exact HN. fold nBL in Ho, Hb.
  assert (Ib : forall k, In k order -> 0 <= k < nBL) by (intros k Hk; apply (Permutation_in _ Ho) in Hk; apply range_in in Hk; exact Hk).
  change (p * nBL * nChan + b * nChan + c) with (adr b p c).
  rewrite (separate_at (xengine3_step nStand nChan nFFT dX dY vX vY) (fun b x => exists p c, 0 <= p < 4 /\ 0 <= c < nChan /\ x = adr b p c) _ _ b).
  - apply x3_step; assumption.
  - apply (Permutation_NoDup (Permutation_sym Ho)). apply range_NoDup.
  - apply (Permutation_in _ (Permutation_sym Ho)). apply range_in. exact Hb.
  - exists p, c. auto.
  - intros b' Hb' m x H. apply x3_step; [apply Ib; exact Hb'|]. intros p' c' Hp' Hc' E. apply H. exists p', c'. auto.
  - intros b' Hb' m1 m2 H x (p' & c' & Hp' & Hc' & ->). rewrite !(proj1 (x3_step b' _ (Ib b' Hb'))) by assumption. reflexivity.
  - intros a a' x Ha Ha' (p1 & c1 & _ & Hc1 & ->) (p2 & c2 & _ & Hc2 & E). apply adr_inj in E; auto. apply E.
Qed.
End X3.

(** The second product of U and V is the conjugate of the first. *)
Lemma product_swap : forall nChan nFFT d1 d2 s1 s2 c, product nChan nFFT d1 d2 s1 s2 c = (fst (product nChan nFFT d2 d1 s2 s1 c), (- snd (product nChan nFFT d2 d1 s2 s1 c))%Qc).
Proof.
  intros. unfold product. rewrite !dotc_total. 
  generalize (range 0 nFFT). induction l as [|f l IH]; cbn [map total_c]; [cbn [fst snd]; f_equal; ring|]. rewrite IH. rewrite (conj_times (d1 _) (d2 _)). unfold plus. cbn [fst snd]. f_equal; ring.
Qed.
Lemma act_vis_all : forall nFFT v1 v2 s1 s2, 0 <= nFFT -> (forall f, 0 <= f < nFFT -> v1 (s1 * nFFT + f) = 1) -> (forall f, 0 <= f < nFFT -> v2 (s2 * nFFT + f) = 1) ->
  act_vis nFFT v1 v2 s1 s2 = nFFT.
Proof.
  intros nFFT v1 v2 s1 s2 Hn H1 H2. rewrite (act_vis_count nFFT _ _ s1 s2 (fun _ => true) (fun _ => true)) by assumption. rewrite filter_all by reflexivity. rewrite range_len. lia.
Qed.

(** The Stokes parameters as stored, from the quotients of the single products, when all count the same transforms. *)
Lemma x3val_stokes : forall nStand nChan nFFT dX dY vX vY b s1 s2 p c, znth (0, 0) b (mapper nStand) = (s1, s2) -> act_vis nFFT vX vY s1 s2 = nFFT -> 0 <= p < 4 ->
  x3val nStand nChan nFFT dX dY vX vY b p c =
  stokes_vis p (cdiv (product nChan nFFT dX dX s1 s2 c) nFFT) (cdiv (product nChan nFFT dX dY s1 s2 c) nFFT)
    (option_map (fun z => (fst z, (- snd z)%Qc)) (cdiv (product nChan nFFT dX dY s1 s2 c) nFFT)) (cdiv (product nChan nFFT dY dY s1 s2 c) nFFT).
Proof.
  intros nStand nChan nFFT dX dY vX vY b s1 s2 p c Hm Ha Hp. unfold x3val. rewrite Hm, Ha, (product_swap nChan nFFT dY dX s2 s1).
  generalize (product nChan nFFT dX dX s1 s2 c) (product nChan nFFT dX dY s1 s2 c) (product nChan nFFT dY dY s1 s2 c). intros [a1 a2] [b1 b2] [d1 d2].
  unfold cdiv, stokes_vis, over_i. destruct (nFFT =? 0); [destruct (p =? 0), (p =? 1), (p =? 2); reflexivity|].
  destruct (p =? 0), (p =? 1), (p =? 2); cbn [option_map fst snd cadd csub]; apply (f_equal (@Some C)); unfold cadd, csub; cbn [fst snd]; apply f_equal2; unfold Qcdiv; ring.
Qed.

Lemma clean_0 : forall L nTap data row s, clean L nTap 0 data row s = true.
Proof. intros. unfold clean, loop. generalize (range 0 (L * nTap)). induction l as [|k l IH]; [reflexivity|]. cbn [fold_left]. exact IH. Qed.
Lemma starts_same : forall L a b step, zlen (starts L a step) = zlen (starts L b step) -> starts L a step = starts L b step.
Proof.
  intros L a b step H. unfold starts in *. rewrite !zlen_map, !upto_range, !range_len in H. rewrite !upto_range. f_equal.
  set (u := if a <? L then 0 else (a - L) / step + 1) in *. set (v := if b <? L then 0 else (b - L) / step + 1) in *. clearbody u v.
  destruct (Z.le_gt_cases u 0). { destruct (Z.le_gt_cases v 0); [rewrite !range_nil by lia; reflexivity|lia]. } f_equal. lia.
Qed.
Lemma correlation_same : forall E norm F L taps w level step rate fref d1 d2 f b (x1 x2 : list complex) tau1 tau2,
  zlen (starts L (zlen x1 - d1) step) = zlen (starts L (zlen x1 - d2) step) ->
  correlation E norm F L taps w level step rate fref d1 f b x1 x2 tau1 tau2 = correlation E norm F L taps w level step rate fref d2 f b x1 x2 tau1 tau2.
Proof. intros. unfold correlation, vis. rewrite (starts_same L _ _ step H). reflexivity. Qed.

Section Cell.
Context (F : bool -> Z -> list C -> list C) (pw : Z -> Z -> Qc) (E : Qc -> C) (norm : Z -> Qc).
Context (n : Z) (cplx : bool) (LFFT ov step : Z) (window : option (Z -> Z -> Qc)) (pfb : bool) (rate f0 : Qc).
Hypothesis HLF : 0 < LFFT.
Hypothesis Hn : 0 <= n.
Hypothesis Hrate : (0 < rate)%Qc.
Hypothesis Hov : 0 < ov.
Let L := if cplx then LFFT else 2 * LFFT.
Hypothesis Hstep : L = step * ov.
Let freq := frequencies cplx LFFT rate f0.
Let fr := znth 0%Qc (LFFT / 2) freq.
Let taps := if pfb then 4 else 1.
Let weights := if pfb then Some (pw (L * 4)) else match window with Some w => Some (w L) | None => None end.

Lemma valid_all : forall N rows delay junk ord nFFT e, 0 < N ->
  fengine F pw E norm n rows N delay freq cplx LFFT ov window pfb rate 0 junk ord = Some (Ok (nFFT, e)) -> Permutation ord (range 0 (N * nFFT)) ->
  forall i f, 0 <= i < N -> 0 <= f < nFFT -> snd e (i * nFFT + f) = 1.
Proof.
  intros N rows delay junk ord nFFT e HN H Ho i f Hi Hf. destruct (fengine_ok _ _ _ _ _ _ _ _ _ _ _ _ _ _ _ _ _ _ _ _ H) as (_ & _ & _ & ->).
  rewrite (fengine_valid _ _ _ _ _ _ _ _ _ N) by (assumption || lia). unfold fok. rewrite clean_0. reflexivity.
Qed.

Lemma st_cell : forall N rows1 rows2 delay1 delay2 tau1 tau2 junk1 junk2 ord1 ord2 ordX nFFT e1 e2,
  0 < N -> front n cplx LFFT rate f0 N rows1 delay1 tau1 -> front n cplx LFFT rate f0 N rows2 delay2 tau2 ->
  fengine F pw E norm n rows1 N delay1 freq cplx LFFT ov window pfb rate 0 junk1 ord1 = Some (Ok (nFFT, e1)) ->
  fengine F pw E norm n rows2 N delay2 freq cplx LFFT ov window pfb rate 0 junk2 ord2 = Some (Ok (nFFT, e2)) ->
  exists dmax, greatest (map (fun i => lag rate fr (tau1 i)) (range 0 N)) dmax /\ zlen (starts L (n - dmax) step) = nFFT /\
    (Permutation ord1 (range 0 (N * nFFT)) -> Permutation ord2 (range 0 (N * nFFT)) -> Permutation ordX (range 0 (zlen (mapper N))) ->
     forall b i j k p, 0 <= b < zlen (mapper N) -> znth (0, 0) b (mapper N) = (i, j) -> 0 <= k < LFFT -> 0 <= p < 4 ->
     let corr (x y : bool * Z) := correlation E (norm L) (F (negb cplx) LFFT) L taps weights 0 step rate fr dmax (znth 0%Qc k freq) (if cplx then shifted_bin LFFT k else k)
       (znth [] (snd x) (if fst x then rows1 else rows2)) (znth [] (snd y) (if fst y then rows1 else rows2)) ((if fst x then tau1 else tau2) (snd x)) ((if fst y then tau1 else tau2) (snd y)) in
     xengine3 N LFFT nFFT (fst e1) (fst e2) (snd e1) (snd e2) ordX (p * Z.quot ((N + 1) * N) 2 * LFFT + b * LFFT + k) =
     stokes_vis p (corr (true, i) (true, j)) (corr (true, i) (false, j)) (option_map (fun z => (fst z, (- snd z)%Qc)) (corr (true, i) (false, j))) (corr (false, i) (false, j))).
Proof.
  intros N rows1 rows2 delay1 delay2 tau1 tau2 junk1 junk2 o1 o2 oX nFFT e1 e2 HN Fr1 Fr2 H1 H2.
  destruct (fx_cell F pw E norm n cplx LFFT ov step window pfb rate f0 0 HLF Hn Hrate Hov Hstep N rows1 rows1 delay1 delay1 tau1 tau1 junk1 junk1 o1 o1 (range 0 (zlen (mapper N))) nFFT e1 e1 HN Fr1 Fr1 H1 H1)
    as (dmax & G11 & S11 & X11).
  destruct (fx_cell F pw E norm n cplx LFFT ov step window pfb rate f0 0 HLF Hn Hrate Hov Hstep N rows1 rows2 delay1 delay2 tau1 tau2 junk1 junk2 o1 o2 (range 0 (zlen (mapper N))) nFFT e1 e2 HN Fr1 Fr2 H1 H2)
    as (dm12 & _ & S12 & X12).
  destruct (fx_cell F pw E norm n cplx LFFT ov step window pfb rate f0 0 HLF Hn Hrate Hov Hstep N rows2 rows2 delay2 delay2 tau2 tau2 junk2 junk2 o2 o2 (range 0 (zlen (mapper N))) nFFT e2 e2 HN Fr2 Fr2 H2 H2)
    as (dm22 & _ & S22 & X22).
  exists dmax. fold L in S11, S12, S22. split; [exact G11|]. split; [exact S11|]. intros O1 O2 OX b i j k p Hb Hm Hk Hp corr.
  assert (Hij : 0 <= i < N /\ 0 <= j < N).
  { assert (HI : In (i, j) (mapper N)) by (rewrite <- Hm; apply znth_In; exact Hb). rewrite mapper_all in HI. apply (pairs_in true) in HI. lia. }
  destruct Hij as [Hi Hj].
  assert (Hf : 0 <= nFFT) by (rewrite <- S11; apply zlen_nonneg).
  pose proof (valid_all N rows1 delay1 junk1 o1 nFFT e1 HN H1 O1) as V1. pose proof (valid_all N rows2 delay2 junk2 o2 nFFT e2 HN H2 O2) as V2.
  specialize (X11 O1 O1 (Permutation_refl _) b i j k Hb Hm Hk). specialize (X12 O1 O2 (Permutation_refl _) b i j k Hb Hm Hk). specialize (X22 O2 O2 (Permutation_refl _) b i j k Hb Hm Hk).
  rewrite xengine2_at in X11, X12, X22 by (assumption || apply Permutation_refl). rewrite Hm in X11, X12, X22.
  rewrite act_vis_all in X11, X12, X22 by (first [exact Hf|intros f Hff; first [apply V1; assumption|apply V2; assumption]]).
  assert (AV : act_vis nFFT (snd e1) (snd e2) i j = nFFT) by (apply act_vis_all; [exact Hf|intros f Hff; apply V1; assumption|intros f Hff; apply V2; assumption]).
  rewrite xengine3_at by (assumption || lia). rewrite (x3val_stokes _ _ _ _ _ _ _ b i j p k Hm AV Hp).
  fold L freq fr in X11, X12, X22. rewrite X11, X12, X22. unfold corr. cbn [fst snd].
  destruct Fr1 as (Z1 & R1 & _). destruct Fr2 as (Z2 & R2 & _).
  assert (L1 : zlen (znth [] i rows1) = n) by (apply R1; apply znth_In; lia). assert (L2 : zlen (znth [] i rows2) = n) by (apply R2; apply znth_In; lia).
  fold taps weights.
  rewrite (correlation_same _ _ _ _ _ _ _ _ _ _ dm12 dmax _ _ (znth [] i rows1)) by (change complex with C; rewrite L1; congruence).
  rewrite (correlation_same _ _ _ _ _ _ _ _ _ _ dm22 dmax _ _ (znth [] i rows2)) by (change complex with C; rewrite L2; congruence).
  reflexivity.
Qed.
End Cell.

Lemma stokes_iq : forall p xx xy yx yx' yy, 0 <= p < 2 -> (yx = None <-> yx' = None) -> stokes_vis p xx xy yx yy = stokes_vis p xx xy yx' yy.
Proof.
  intros p xx xy yx yx' yy Hp H. unfold stokes_vis. destruct xx as [[]|]; [|reflexivity]. destruct xy as [[]|]; [|reflexivity].
  destruct yx as [[]|], yx' as [[]|]; try reflexivity.
  - destruct yy as [[]|]; [|reflexivity]. destruct (Z.eqb_spec p 0); [reflexivity|]. destruct (Z.eqb_spec p 1); [reflexivity|].
    exfalso. lia.
  - destruct H as [_ H]. discriminate (H eq_refl).
  - destruct H as [H _]. discriminate (H eq_refl).
Qed.
Lemma blanked_0 : forall L taps x p, blanked L taps 0 x p = false.
Proof. intros. unfold blanked. generalize (used L taps p). induction l as [|q l IH]; [reflexivity|]. cbn [existsb]. rewrite IH. reflexivity. Qed.
Lemma correlation_none : forall E norm F L taps w step rate fref dmax f b (x1 x2 : list complex) tau1 tau2,
  correlation E norm F L taps w 0 step rate fref dmax f b x1 x2 tau1 tau2 = None <-> starts L (zlen x1 - dmax) step = [].
Proof.
  intros. unfold correlation, vis. rewrite filter_all by (intros q _; rewrite !blanked_0; reflexivity). destruct (starts L (zlen x1 - dmax) step); cbn [map mean_c]; split; intro H; first [reflexivity|discriminate].
Qed.
Lemma correlation_none_same : forall E norm F L taps w step rate fref dmax f b (x1 x2 y1 y2 : list complex) tau1 tau2 tau3 tau4, zlen x1 = zlen y1 ->
  (option_map (fun z => (fst z, (- snd z)%Qc)) (correlation E norm F L taps w 0 step rate fref dmax f b x1 x2 tau1 tau2) = None <->
   correlation E norm F L taps w 0 step rate fref dmax f b y1 y2 tau3 tau4 = None).
Proof.
  intros. rewrite correlation_none. rewrite <- H. rewrite <- (correlation_none E norm F L taps w step rate fref dmax f b x1 x2 tau1 tau2).
  destruct (correlation _ _ _ _ _ _ _ _ _ _ _ _ _ _ _ _ _); cbn [option_map]; split; intro G; first [reflexivity|discriminate].
Qed.

Lemma mean_conj : forall (x y : Z -> complex) l, option_map (fun z => (fst z, (- snd z)%Qc)) (mean_c (map (fun t => times_conj (x t) (y t)) l)) = mean_c (map (fun t => times_conj (y t) (x t)) l).
Proof.
  intros x y l.
  assert (T : total_c (map (fun t => times_conj (y t) (x t)) l) = (fst (total_c (map (fun t => times_conj (x t) (y t)) l)), (- snd (total_c (map (fun t => times_conj (x t) (y t)) l)))%Qc)).
  { induction l as [|t l IH]; cbn [map total_c]; [cbn [fst snd]; f_equal; ring|]. rewrite IH, (conj_times (y t) (x t)). unfold plus. cbn [fst snd]. f_equal; ring. }
  destruct l as [|t l]; [reflexivity|]. set (h := t :: l) in *.
  assert (M : forall g : Z -> complex, mean_c (map g h) = Some ((fst (total_c (map g h)) / num (zlen h))%Qc, (snd (total_c (map g h)) / num (zlen h))%Qc)).
  { intro g. rewrite <- (zlen_map _ _ g h). reflexivity. }
  rewrite !M, T. cbn [option_map fst snd]. apply (f_equal (@Some complex)). apply f_equal2; [reflexivity|]. unfold Qcdiv. ring.
Qed.
Lemma mean_none : forall (g : Z -> complex) l, mean_c (map g l) = None <-> l = [].
Proof. intros g [|t l]; cbn [map mean_c]; split; intro H; first [reflexivity|discriminate]. Qed.
Lemma stokes_scaled : forall p z xx xy yx yy, stokes_vis p (option_map (c_times z) xx) (option_map (c_times z) xy) (option_map (c_times z) yx) (option_map (c_times z) yy) =
  option_map (c_times z) (stokes_vis p xx xy yx yy).
Proof.
  intros p [u v] xx xy yx yy. unfold stokes_vis. destruct xx as [[]|]; [|reflexivity]. destruct xy as [[]|]; [|reflexivity]. destruct yx as [[]|]; [|reflexivity]. destruct yy as [[]|]; [|reflexivity].
  cbn [option_map c_times]. apply (f_equal (@Some complex)). destruct (p =? 0), (p =? 1), (p =? 2); apply f_equal2; ring.
Qed.
Lemma stokes_turned : forall p (gain : bool) rg r1 r2 (x1 x2 y1 y2 : Z -> complex) l, (0 <= p < 2 \/ x1 = x2 /\ y1 = y2) ->
  let mm u v := mean_c (map (fun t => times_conj (u t) (v t)) l) in
  let tt u v := mean_c (map (fun t => times_conj (c_times (u t) r1) (c_times (v t) r2)) l) in
  times (if gain then cmul (cmul (conj r2) r1) (rg, 0%Qc) else cmul (conj r2) r1) (stokes_vis p (mm x1 x2) (mm x1 y2) (option_map (fun z => (fst z, (- snd z)%Qc)) (mm x1 y2)) (mm y1 y2)) =
  option_map (fun z => if gain then c_times z (rg, 0%Qc) else z) (stokes_vis p (tt x1 x2) (tt x1 y2) (tt y1 x2) (tt y1 y2)).
Proof.
  intros p gain rg r1 r2 x1 x2 y1 y2 l H mm tt.
  assert (T : forall u v, tt u v = option_map (c_times (times_conj r1 r2)) (mm u v)).
  { intros u v. unfold tt, mm. rewrite (map_ext (fun t => times_conj (c_times (u t) r1) (c_times (v t) r2)) (fun t => c_times (times_conj r1 r2) (times_conj (u t) (v t)))) by (intro; apply turned_products).
    rewrite <- (map_map (fun t => times_conj (u t) (v t)) (c_times (times_conj r1 r2))). apply mean_times. }
  assert (S : stokes_vis p (mm x1 x2) (mm x1 y2) (option_map (fun z => (fst z, (- snd z)%Qc)) (mm x1 y2)) (mm y1 y2) = stokes_vis p (mm x1 x2) (mm x1 y2) (mm y1 x2) (mm y1 y2)).
  { unfold mm. rewrite mean_conj. destruct H as [H|[-> ->]]; [|reflexivity]. apply stokes_iq; [exact H|]. rewrite !mean_none. reflexivity. }
  rewrite S, !T, stokes_scaled. clear S. destruct (stokes_vis p (mm x1 x2) (mm x1 y2) (mm y1 x2) (mm y1 y2)) as [[a b]|]; [|reflexivity]. unfold times. cbn [option_map]. apply (f_equal (@Some C)).
  destruct r1 as [c d], r2 as [e f]. destruct gain; unfold cmul, conj, c_times, times_conj; cbn [fst snd]; apply f_equal2; ring.
Qed.
