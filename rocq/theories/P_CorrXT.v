From Coq Require Import Ascii String List ZArith QArith Qcanon Qround Bool Lia Permutation.
From Verif Require Import LibList M_Py M_Base P_Base M_Corr M_CorrPy S_Corr P_Corr P_CorrSpec P_CorrPsd P_CorrPick P_CorrF P_CorrX P_CorrFX P_CorrAl P_CorrT.
Import ListNotations.
Open Scope Z_scope.

(** C78: FXMaster.  When the overlap divides the length of the transform, the row of every baseline is, channel by channel, the mean of the transform of
    the first signal times the conjugate of that of the second over the windows that fit in the data, without those with a
    clipped sample, each signal delayed by the delay of its antenna: by whole samples as far as possible, by a rotation for the rest.
    The rows come in the order of the baseline list, which has all pairs; for this the antennas of the two polarizations must be listed in the same
    order of stands, unless auto-correlations are kept.  It holds for every memory around the arrays and every order of the parallel loops. *)
Lemma C78_correlation_proof : forall F pw E norm rgain n signals ants (cplx : bool) LFFT ov auto window (pfb : bool) rate f0 c1 c2 pol1 pol2 (gain : bool) clip s baselines freq out (d : ant) step,
  let L := if cplx then LFFT else 2 * LFFT in
  0 < LFFT -> 0 <= n -> (0 < rate)%Qc -> 0 < ov -> L = step * ov -> (forall x : list C, In x signals -> zlen x = n) -> zlen signals = zlen ants ->
  pol_number c1 = Some pol1 -> pol_number c2 = Some pol2 ->
  let I1 := positions (fun a => a_pol a =? pol1) ants in let I2 := positions (fun a => a_pol a =? pol2) ants in
  let A i := znth d i ants in
  (auto = false -> forall i j, 0 <= i < zlen I1 -> 0 <= j < zlen I1 -> (a_stand (A (znth 0 i I1)) = a_stand (A (znth 0 j I2)) <-> i = j)) ->
  fx_master F pw E norm rgain n signals ants cplx LFFT ov auto window pfb rate f0 (String c1 (String c2 "")) gain clip s = Some (Ok (baselines, freq, out)) ->
  zlen I2 = zlen I1 /\ baselines = map (fun q => (A (znth 0 (fst q) I1), A (znth 0 (snd q) I2))) (pair_list auto (zlen I1)) /\ zlen out = zlen baselines /\
  zlen freq = LFFT /\ (forall k, 0 <= k < LFFT -> znth 0%Qc k freq = if cplx then (f0 + bin_freq LFFT rate (shifted_bin LFFT k))%Qc else bin_freq (2 * LFFT) rate k) /\
  exists tmin dmax, let fr := znth 0%Qc (LFFT / 2) freq in let tau i f := (a_delay (A i) f - tmin)%Qc in
    least (map (fun i => a_delay (A i) fr) (I1 ++ I2)) tmin /\ greatest (map (fun i => lag rate fr (tau i)) I1) dmax /\
    let m := zlen (starts L (n - dmax) step) in
    (Permutation (ord1 s) (upto 0 (zlen I1 * m)) -> Permutation (ord2 s) (upto 0 (zlen I1 * m)) -> Permutation (ordX s) (upto 0 (zlen (pair_list true (zlen I1)))) ->
     forall r i j k, 0 <= r < zlen baselines -> znth (0, 0) r (pair_list auto (zlen I1)) = (i, j) -> 0 <= k < LFFT ->
     let p := znth 0 i I1 in let q := znth 0 j I2 in let f := znth 0%Qc k freq in
     znth None k (znth [] r out) =
     option_map (fun z => if gain then c_times z (rgain (A p) (A q) f, 0%Qc) else z)
       (correlation E (norm L) (F (negb cplx) LFFT) L (if pfb then 4 else 1) (if pfb then Some (pw (L * 4)) else match window with Some w => Some (w L) | None => None end)
          clip step rate fr dmax f (if cplx then shifted_bin LFFT k else k) (znth [] p signals) (znth [] q signals) (tau p) (tau q))).
Proof.
  intros F pw E norm rgain n signals ants cplx LFFT ov auto window pfb rate f0 c1 c2 pol1 pol2 gain clip s baselines freq out d step L
    HLF Hn Hrate Hov Hstep Hsig Hsa Hp1 Hp2 I1 I2 A HS H.
  assert (Etp : two_pols (String c1 (String c2 "")) = Ok (pol1, pol2)).
  { assert (G : forall c p, pol_number c = Some p -> forall rest, pol_to_pols (String c rest) = bind (pol_to_pols rest) (fun l => Ok (p :: l))).
    { intros c p Hc rest. cbn [pol_to_pols]. destruct c as [[] [] [] [] [] [] [] []]; vm_compute in Hc; try discriminate; injection Hc as <-; reflexivity. }
    unfold two_pols. rewrite (G _ _ Hp1), (G _ _ Hp2). reflexivity. }
  unfold fx_master in H. rewrite Etp in H. clear Etp Hp1 Hp2. cbv zeta in H. rewrite !index_positions in H. fold I1 I2 in H.
  set (ants1 := of_pol pol1 ants) in *. set (ants2 := of_pol pol2 ants) in *.
  assert (EA1 : ants1 = map A I1) by (symmetry; apply positions_pick). assert (EA2 : ants2 = map A I2) by (symmetry; apply positions_pick).
  assert (LA1 : zlen ants1 = zlen I1) by (rewrite EA1; apply zlen_map). assert (LA2 : zlen ants2 = zlen I2) by (rewrite EA2; apply zlen_map).
  assert (N1 : forall i, 0 <= i < zlen I1 -> znth d i ants1 = A (znth 0 i I1)) by (intros i Hi; rewrite EA1; apply (znth_map _ _ _ 0); exact Hi).
  assert (N2 : forall i, 0 <= i < zlen I2 -> znth d i ants2 = A (znth 0 i I2)) by (intros i Hi; rewrite EA2; apply (znth_map _ _ _ 0); exact Hi).
  destruct (get_baselines ants1 (Some ants2) auto) as [bl|] eqn:Ebl; [|discriminate].
  set (fq := frequencies cplx LFFT rate f0) in *.
  destruct (delays_of fq ants1 ants2) as [[dl1 dl2]|] eqn:Edl; [|discriminate].
  destruct ((match window with Some _ => true | None => false end) && pfb); [discriminate|].
  assert (Hrow : forall J, (forall i, In i J -> 0 <= i < zlen ants) -> take_rows signals J = Ok (map (fun i => znth [] i signals) J)).
  { intros J HJ. unfold take_rows. apply collect_ok. intros i Hi. apply P_CorrPick.py_index_in. rewrite Hsa. apply HJ. exact Hi. }
  assert (B1 : forall i, In i I1 -> 0 <= i < zlen ants) by (intros i Hi; apply positions_in in Hi; exact Hi).
  assert (B2 : forall i, In i I2 -> 0 <= i < zlen ants) by (intros i Hi; apply positions_in in Hi; exact Hi).
  assert (Er1 : (if negb (zlen signals =? zlen I1) then take_rows signals I1 else Ok signals) = Ok (map (fun i => znth [] i signals) I1)).
  { destruct (Z.eqb_spec (zlen signals) (zlen I1)) as [Eq|Eq]; cbn [negb]; [|apply Hrow; exact B1].
    f_equal. unfold I1. rewrite positions_full by (fold I1; lia). rewrite <- Hsa. symmetry. apply znth_self. }
  rewrite Er1 in H. clear Er1. set (rows1 := map (fun i => znth [] i signals) I1) in *. set (rows2 := map (fun i => znth [] i signals) I2) in *.
  destruct (fengine F pw E norm n rows1 (zlen ants1) dl1 fq cplx LFFT ov window pfb rate clip (around1 s) (ord1 s)) as [[[nFFT1 [fe1 v1]]|]|] eqn:Ef1; try discriminate.
  assert (LR1 : zlen rows1 = zlen I1) by (apply zlen_map). assert (LR2 : zlen rows2 = zlen I2) by (apply zlen_map).
  (* the second engine *)
  assert (Q : exists f2 v2, zlen I2 = zlen I1 /\ exists junk2 order2, order2 = (if pol2 =? pol1 then ord1 s else ord2 s) /\
     fengine F pw E norm n rows2 (zlen ants1) dl2 fq cplx LFFT ov window pfb rate clip junk2 order2 = Some (Ok (nFFT1, (f2, v2))) /\
     (let o := xengine2 (zlen ants1) LFFT nFFT1 fe1 f2 v1 v2 (ordX s) in
      match kept ants1 ants2 auto with
      | Raise e => Some (Raise e)
      | Ok keep =>
        let rows := map (fun b => map (fun k => o (b * LFFT + k)) (range 0 LFFT)) keep in
        match (if gain
               then collect (map (fun q => bind (label bl (fst q)) (fun a =>
                      Ok (map (fun kv => times ((rgain (fst a) (snd a) (znth 0%Qc (fst kv) fq)), 0%Qc) (snd kv)) (combine (range 0 LFFT) (snd q)))))
                      (combine (range 0 (zlen rows)) rows))
               else Ok rows) with
        | Raise e => Some (Raise e)
        | Ok rows => Some (Ok (bl, fq, rows))
        end
      end) = Some (Ok (baselines, freq, out))).
  { destruct (Z.eqb_spec pol2 pol1) as [Ep|Ep].
    - assert (I2 = I1) by (unfold I1, I2; rewrite Ep; reflexivity). assert (ants2 = ants1) by (unfold ants1, ants2; rewrite Ep; reflexivity).
      assert (EI : zlen I2 = zlen I1) by congruence.
      rewrite !Z.eqb_refl in H. cbn [andb negb] in H. exists fe1, v1. split; [exact EI|]. exists (around1 s), (ord1 s). split; [reflexivity|]. split; [|exact H].
      assert (rows2 = rows1) by (unfold rows1, rows2; congruence). rewrite H2.
      assert (dl2 = dl1).
      { rewrite H1 in Edl. unfold delays_of in Edl. destruct (collect (map (py_index ants1) (range 0 (zlen ants1)))) as [a2|] eqn:Ec; [|discriminate]. cbn [bind] in Edl.
        assert (a2 = ants1).
        { destruct (collect_inv _ _ 0 d _ _ _ Ec) as [K1 K2]. rewrite range_len in K1, K2. pose proof (zlen_nonneg ants1).
          destruct (ztake_of _ d ants1 a2 (zlen ants1)) as [_ ->]; [lia|lia|intros i Hi; rewrite <- K2 by lia; rewrite znth_range' by lia; reflexivity|apply ztake_all; lia]. }
        subst a2. destruct (map (fun a => a_delay a _) ants1); [discriminate|]. injection Edl as <- <-. reflexivity. }
      rewrite H3. exact Ef1.
    - rewrite (Hrow I2 B2) in H. fold rows2 in H.
      destruct (fengine F pw E norm n rows2 (zlen ants1) dl2 fq cplx LFFT ov window pfb rate clip (around2 s) (ord2 s)) as [[[nFFT2 [fe2 v2]]|]|] eqn:Ef2; try discriminate.
      destruct (Z.eqb_spec (zlen rows2) (zlen ants1)) as [Er|]; [|discriminate]. destruct (Z.eqb_spec nFFT2 nFFT1) as [En|]; [|discriminate]. subst nFFT2.
      cbn [andb negb] in H. exists fe2, v2. split; [lia|]. exists (around2 s), (ord2 s). split; [reflexivity|]. split; [exact Ef2|exact H]. }
  clear H. destruct Q as (fe2 & v2 & EI & junk2 & order2 & Eo2 & Ef2 & H). cbv zeta in H.
  destruct (delays_of_ok _ _ _ _ _ d Edl) as ([Npos Nle] & tmin & Hleast & D1 & D2).
  assert (Lfq : zlen fq = LFFT) by (apply frequencies_len; exact HLF). rewrite Lfq in Hleast.
  set (fr := znth 0%Qc (LFFT / 2) fq) in *.
  destruct (kept ants1 ants2 auto) as [keep|] eqn:Ek; [|discriminate].
  destruct (kept_pairs ants1 ants2 auto keep d) as [K1 K2]; [lia| |exact Ek|].
  { intros Ha i j Hi Hj. rewrite N1, N2 by lia. apply HS; [exact Ha|lia|lia]. }
  rewrite (get_baselines_ok d) in Ebl by lia. assert (Ebl' : bl = map (fun q => (A (znth 0 (fst q) I1), A (znth 0 (snd q) I2))) (pair_list auto (zlen I1))).
  { injection Ebl as <-. rewrite pair_list_pairs, LA1. apply map_ext_in. intros [i j] Hij. apply pairs_in in Hij. cbn [fst snd]. rewrite N1, N2 by lia. reflexivity. }
  set (o := xengine2 (zlen ants1) LFFT nFFT1 fe1 fe2 v1 v2 (ordX s)) in *.
  set (rows := map (fun b => map (fun k => o (b * LFFT + k)) (range 0 LFFT)) keep) in *.
  assert (Lkeep : zlen keep = zlen (pair_list auto (zlen I1))) by (rewrite pair_list_pairs, <- LA1, <- K1, zlen_map; reflexivity).
  assert (Lrows : zlen rows = zlen keep) by (apply zlen_map).
  assert (Lbl : zlen bl = zlen (pair_list auto (zlen I1))) by (rewrite Ebl'; apply zlen_map).
  assert (Q : baselines = bl /\ freq = fq /\ zlen out = zlen bl /\ forall r k, 0 <= r < zlen bl -> 0 <= k < LFFT ->
     znth None k (znth [] r out) = option_map (fun z => if gain then c_times z (rgain (fst (znth (d, d) r bl)) (snd (znth (d, d) r bl)) (znth 0%Qc k fq), 0%Qc) else z) (o (znth 0 r keep * LFFT + k))).
  { assert (Hcell : forall r k, 0 <= r < zlen bl -> 0 <= k < LFFT -> znth None k (znth [] r rows) = o (znth 0 r keep * LFFT + k)).
    { intros r k Hr Hk. unfold rows. rewrite (znth_map _ _ _ 0) by lia. rewrite (znth_map _ _ _ 0) by (rewrite range_len; lia). rewrite znth_range' by lia. f_equal. }
    destruct gain.
    - destruct (collect _) as [rows'|] eqn:Ec; [|discriminate]. injection H as <- <- <-. split; [reflexivity|]. split; [reflexivity|].
      destruct (collect_inv _ _ (0, []) [] _ _ _ Ec) as [C1 C2].
      assert (Lc : zlen (combine (range 0 (zlen rows)) rows) = zlen rows).
      { unfold zlen at 1. rewrite combine_length. pose proof (range_len 0 (zlen rows)). pose proof (zlen_nonneg rows). unfold zlen in *. lia. }
      rewrite Lc in C1, C2. split; [lia|]. intros r k Hr Hk. specialize (C2 r ltac:(lia)).
      assert (Ez : znth (0, []) r (combine (range 0 (zlen rows)) rows) = (r, znth [] r rows)).
      { unfold znth at 1. destruct (Z.ltb_spec r 0); [lia|]. rewrite combine_nth by (pose proof (range_len 0 (zlen rows)); pose proof (zlen_nonneg rows); unfold zlen in *; lia).
        f_equal; [|unfold znth; destruct (Z.ltb_spec r 0); [lia|reflexivity]]. transitivity (znth 0 r (range 0 (zlen rows))); [unfold znth; destruct (Z.ltb_spec r 0); [lia|reflexivity]|]. rewrite znth_range' by lia. lia. }
      rewrite Ez in C2. cbn [fst snd] in C2. unfold label in C2. rewrite (P_CorrPick.py_index_in _ (d, d)) in C2 by lia. cbn [bind] in C2. injection C2 as C2.
      rewrite <- C2. rewrite (znth_map _ _ _ (0, None)).
      + assert (Ek2 : znth (0, None) k (combine (range 0 LFFT) (znth [] r rows)) = (k, znth None k (znth [] r rows))).
        { assert (Lr : length (range 0 LFFT) = length (znth [] r rows)).
          { unfold rows. rewrite (znth_map _ _ _ 0) by lia. rewrite map_length. reflexivity. }
          unfold znth at 1. destruct (Z.ltb_spec k 0); [lia|]. rewrite combine_nth by exact Lr.
          f_equal; [|unfold znth; destruct (Z.ltb_spec k 0); [lia|reflexivity]]. transitivity (znth 0 k (range 0 LFFT)); [unfold znth; destruct (Z.ltb_spec k 0); [lia|reflexivity]|]. rewrite znth_range' by lia. lia. }
        rewrite Ek2. cbn [fst snd]. rewrite Hcell by assumption. unfold times. destruct (o (znth 0 r keep * LFFT + k)) as [[a b]|]; [|reflexivity].
        cbn [option_map]. f_equal.
      + unfold rows. rewrite (znth_map _ _ _ 0) by lia. unfold zlen. rewrite combine_length, map_length. pose proof (range_len 0 LFFT). unfold zlen in *. lia.
    - injection H as <- <- <-. split; [reflexivity|]. split; [reflexivity|]. split; [lia|]. intros r k Hr Hk. rewrite Hcell by assumption. destruct (o (znth 0 r keep * LFFT + k)); reflexivity. }
  clear H. destruct Q as (-> & -> & Lout & Hcells).
  split; [exact EI|]. split; [exact Ebl'|]. split; [exact Lout|]. split; [exact Lfq|]. split.
  { intros k Hk. apply frequencies_at; try assumption. apply rate_nz. exact Hrate. }
  assert (Hleast' : least (map (fun i => a_delay (A i) fr) (I1 ++ I2)) tmin).
  { rewrite ztake_all in Hleast by lia. rewrite EA1, EA2, <- map_app, map_map in Hleast. exact Hleast. }
  pose (tau1 := fun i f => (a_delay (znth d i ants1) f - tmin)%Qc). pose (tau2 := fun i f => (a_delay (znth d i ants2) f - tmin)%Qc).
  assert (Pos : forall t, (tmin <= t)%Qc -> (0 <= t - tmin)%Qc) by (intros t Ht; apply (proj1 (Qcle_minus_iff _ _)); exact Ht).
  assert (Fr1 : front n cplx LFFT rate f0 (zlen ants1) rows1 dl1 tau1).
  { split; [lia|]. split; [|split].
    - intros r Hr. apply in_map_iff in Hr. destruct Hr as (i & <- & Hi). apply Hsig. apply znth_In. rewrite Hsa. apply B1. exact Hi.
    - intros i j Hi. unfold tau1. apply D1. exact Hi.
    - intros i Hi. unfold tau1. apply Pos. apply Hleast'. rewrite N1 by lia. apply in_map_iff. exists (znth 0 i I1). split; [reflexivity|]. apply in_or_app. left. apply znth_In. lia. }
  assert (Fr2 : front n cplx LFFT rate f0 (zlen ants1) rows2 dl2 tau2).
  { split; [lia|]. split; [|split].
    - intros r Hr. apply in_map_iff in Hr. destruct Hr as (i & <- & Hi). apply Hsig. apply znth_In. rewrite Hsa. apply B2. exact Hi.
    - intros i j Hi. unfold tau2. apply D2. exact Hi.
    - intros i Hi. unfold tau2. apply Pos. apply Hleast'. rewrite N2 by lia. apply in_map_iff. exists (znth 0 i I2). split; [reflexivity|]. apply in_or_app. right. apply znth_In. lia. }
  destruct (fx_cell F pw E norm n cplx LFFT ov step window pfb rate f0 clip HLF Hn Hrate Hov Hstep (zlen ants1) rows1 rows2 dl1 dl2 tau1 tau2 (around1 s) junk2 (ord1 s) order2 (ordX s) nFFT1 (fe1, v1) (fe2, v2)
    Npos Fr1 Fr2 Ef1 Ef2) as (dmax & Hgr & Hst & Hx).
  exists tmin, dmax. cbv zeta. fold fr. split; [exact Hleast'|]. split.
  { replace (map (fun i => lag rate fr (fun f => (a_delay (A i) f - tmin)%Qc)) I1) with (map (fun i => lag rate fr (tau1 i)) (range 0 (zlen ants1))); [exact Hgr|].
    transitivity (map (fun i => lag rate fr (fun f => (a_delay (A i) f - tmin)%Qc)) (map (fun i => znth 0 i I1) (range 0 (zlen I1)))); [|rewrite znth_self; reflexivity].
    rewrite map_map, LA1. apply map_ext_in. intros i Hi. apply range_in in Hi. unfold tau1. rewrite N1 by lia. reflexivity. }
  fold L in Hst. rewrite Hst. rewrite !upto_range. intros O1 O2 OX r i j k Hr Hij Hk.
  rewrite (pair_list_pairs true), <- mapper_all, <- LA1 in OX.
  rewrite <- LA1 in O1, O2.
  assert (O2' : Permutation order2 (range 0 (zlen ants1 * nFFT1))) by (rewrite Eo2; destruct (pol2 =? pol1); assumption).
  specialize (Hx O1 O2' OX (znth 0 r keep) i j k).
  assert (Hkr : In (znth 0 r keep) keep) by (apply znth_In; lia).
  assert (Hb : 0 <= znth 0 r keep < zlen (mapper (zlen ants1))) by (rewrite mapper_all; apply K2; exact Hkr).
  assert (Hm : znth (0, 0) (znth 0 r keep) (mapper (zlen ants1)) = (i, j)).
  { rewrite <- Hij, mapper_all. rewrite pair_list_pairs, <- LA1, <- K1. rewrite (znth_map _ _ _ 0) by lia. reflexivity. }
  specialize (Hx Hb Hm Hk).
  assert (Hij' : 0 <= i < zlen I1 /\ 0 <= j < zlen I1).
  { assert (HI : In (i, j) (pair_list auto (zlen I1))) by (rewrite <- Hij; apply znth_In; lia). rewrite pair_list_pairs in HI. apply pairs_in in HI. lia. }
  destruct Hij' as [Hi Hj]. rewrite Hcells by assumption. cbn [fst snd] in Hx. fold o in Hx. rewrite Hx.
  assert (Eb : znth (d, d) r bl = (A (znth 0 i I1), A (znth 0 j I2))).
  { rewrite Ebl', (znth_map _ _ _ (0, 0)) by lia. rewrite Hij. reflexivity. }
  rewrite Eb. cbn [fst snd]. unfold rows1, rows2. rewrite !(znth_map _ _ _ 0) by lia. unfold tau1, tau2. rewrite N1, N2 by lia. reflexivity.
Qed.

(** C78: the whole-sample part of a delay is within half a sample of it at the reference frequency. *)
Lemma C78_lag_proof : forall rate fref tau,
  (num (lag rate fref tau) - Q2Qc (1 # 2) <= tau fref * rate)%Qc /\ (tau fref * rate < num (lag rate fref tau) + Q2Qc (1 # 2))%Qc.
Proof. exact lag_near. Qed.

(** C78: what the correlation means.  Two antennas receive the same signal, d1 and d2 samples late; if the receiver moved the frequency fc to zero, the delay
    also turned the phase of each.  When the antennas' delays say just this, the correlation of the two is the mean power of the signal: the
    shifts and the rotations bring them together, and no phase is left.  [E] is a character with values of magnitude one, and the transform
    is linear for these. *)
Lemma C78_aligned_proof : forall E norm F L taps w level step rate fref dmax fc b (s x1 x2 : list complex) d1 d2 tau1 tau2,
  let ph d := E (- (fc * (num d / rate)))%Qc in let f := (fc + bin_freq L rate b)%Qc in
  0 < L -> 0 < taps -> 0 < step -> (0 < rate)%Qc -> 0 <= d1 <= dmax -> 0 <= d2 <= dmax ->
  (forall x y, E (x + y)%Qc = c_times (E x) (E y)) -> E 0%Qc = (1%Qc, 0%Qc) -> (forall x, power (E x) = 1%Qc) ->
  (forall d l, F (map (c_times (ph d)) l) = map (c_times (ph d)) (F l)) ->
  zlen x1 = zlen s -> zlen x2 = zlen s ->
  (forall q, 0 <= q < zlen s -> znth (0%Qc, 0%Qc) q x1 = c_times (ph d1) (sample s (q - d1))) ->
  (forall q, 0 <= q < zlen s -> znth (0%Qc, 0%Qc) q x2 = c_times (ph d2) (sample s (q - d2))) ->
  (tau1 fref = num d1 / rate)%Qc -> (tau1 f = num d1 / rate)%Qc -> (tau2 fref = num d2 / rate)%Qc -> (tau2 f = num d2 / rate)%Qc ->
  correlation E norm F L taps w level step rate fref dmax f b x1 x2 tau1 tau2 =
  option_map (fun v => ((norm * norm * v)%Qc, 0%Qc))
    (mean (map (fun p => power (bin F L taps w s p b)) (filter (fun p => negb (blanked L taps level s p)) (starts L (zlen s - dmax) step)))).
Proof.
  intros E norm F L taps w level step rate fref dmax fc b s x1 x2 d1 d2 tau1 tau2 ph f HL Ht Hs Hr D1 D2 Eadd E0 Eu Hlin Z1 Z2 X1 X2 T1r T1 T2r T2.
  assert (Hnz : rate <> 0%Qc) by (apply rate_nz; exact Hr).
  assert (Lg : forall d (tau : Qc -> Qc), tau fref = (num d / rate)%Qc -> lag rate fref tau = d).
  { intros d tau Hd. unfold lag. rewrite Hd. replace (num d / rate * rate)%Qc with (num d) by (field; exact Hnz). apply nearest_num. }
  unfold correlation. rewrite (Lg d1 tau1 T1r), (Lg d2 tau2 T2r).
  assert (Tn : forall d (tau : Qc -> Qc), tau fref = (num d / rate)%Qc -> tau f = (num d / rate)%Qc -> c_times (ph d) (turn E norm L rate fref f b tau) = (norm, 0%Qc)).
  { intros d tau Hd Hf. unfold turn. rewrite (Lg d tau Hd), Hf. unfold f. replace ((fc + bin_freq L rate b) * (num d / rate) - bin_freq L rate b * (num d / rate))%Qc with (fc * (num d / rate))%Qc by ring.
    rewrite (c_times_comm (norm, _)), c_times_assoc. unfold ph. rewrite <- Eadd. replace (- (fc * (num d / rate)) + fc * (num d / rate))%Qc with 0%Qc by ring. rewrite E0. unfold c_times. f_equal; ring. }
  apply (aligned_vis F L taps w level step dmax s x1 x2 d1 d2 (ph d1) (ph d2)); auto; apply Eu.
Qed.

(** C78: exchanging the antennas conjugates the correlation; an antenna with itself gives the mean power, a real number. *)
Lemma C78_conjugate_proof : forall E norm F L taps w level step rate fref dmax f b (x1 x2 : list complex) tau1 tau2, zlen x2 = zlen x1 ->
  correlation E norm F L taps w level step rate fref dmax f b x1 x2 tau1 tau2 =
  option_map (fun z => (fst z, (- snd z)%Qc)) (correlation E norm F L taps w level step rate fref dmax f b x2 x1 tau2 tau1).
Proof.
  intros E norm F L taps w level step rate fref dmax f b x1 x2 tau1 tau2 Hz. unfold correlation, vis. rewrite Hz.
  set (g := fun p => times_conj (c_times (bin F L taps w x2 (p + lag rate fref tau2) b) (turn E norm L rate fref f b tau2)) (c_times (bin F L taps w x1 (p + lag rate fref tau1) b) (turn E norm L rate fref f b tau1))).
  transitivity (mean_c (map (fun p => (fst (g p), (- snd (g p))%Qc)) (filter (fun p => negb (blanked L taps level x2 (p + lag rate fref tau2)) && negb (blanked L taps level x1 (p + lag rate fref tau1))) (starts L (zlen x1 - dmax) step)))).
  - f_equal. rewrite (filter_ext _ (fun p => negb (blanked L taps level x2 (p + lag rate fref tau2)) && negb (blanked L taps level x1 (p + lag rate fref tau1)))) by (intro p; apply Bool.andb_comm).
    apply map_ext. intro p. apply conj_times.
  - set (l := filter _ _). clearbody l. clearbody g.
    assert (T : total_c (map (fun p => (fst (g p), (- snd (g p))%Qc)) l) = (fst (total_c (map g l)), (- snd (total_c (map g l)))%Qc)).
    { clear. induction l as [|q h IH]; cbn [map total_c]; [cbn [fst snd]; f_equal; ring|]. rewrite IH. unfold plus. cbn [fst snd]. f_equal; ring. }
    destruct l as [|q l]; [reflexivity|]. unfold mean_c. set (h := q :: l) in *. rewrite T. cbn [fst snd]. rewrite !zlen_map. unfold h. cbn [map option_map fst snd]. fold h. do 2 f_equal. unfold Qcdiv. ring.
Qed.

(** Quarter turns, enough for examples, and the results as fractions. *)
Definition quarter (x : Qc) : C := match Qfloor (this x * 4) mod 4 with 0 => qi 1 0 | 1 => qi 0 1 | 2 => qi (-1) 0 | _ => qi 0 (-1) end.
Definition late (p s d : Z) : ant := mkA p s (fun _ => (qz d / qz 4)%Qc).
Definition shown78 (r : option (res (list (ant * ant) * list Qc * list (list (option C))))) : option (res (list (Z * Z) * list Q * list (list (option (Q * Q))))) :=
  match r with
  | None => None | Some (Raise e) => Some (Raise e)
  | Some (Ok (b, f, o)) => Some (Ok (map (fun q => (a_stand (fst q), a_stand (snd q))) b, map this f, map (map (option_map (fun z => (this (fst z), this (snd z))))) o))
  end.
Definition run78 (n : Z) (signals : list (list C)) (ants : list ant) (LFFT ov : Z) (auto : bool) (pol : string) (clip : Z) (s : schedule) :=
  shown78 (fx_master (fun _ _ => dft2) (fun _ _ => 1%Qc) quarter (fun _ => 1%Qc) (fun _ _ _ => qz 2) n signals ants true LFFT ov auto None false (qz 4) (qz 1) pol false clip s).

(** Two antennas of which the second receives the signal of the first one sample later. *)
Definition sig78 : list (list C) := [[qi 1 2; qi 3 0; qi 1 1; qi 9 0; qi 0 1; qi 2 2]; [qi 0 0; qi 2 (-1); qi 0 (-3); qi 1 (-1); qi 0 (-9); qi 1 0]].
Definition sched78 (junk : C) : schedule := mkS [1; 0; 3; 2] [3; 2; 1; 0] [2; 0; 1] (fun _ => junk) (fun _ => junk).
Lemma C78_example_proof :
  run78 6 sig78 [late 0 7 0; late 0 3 1] 2 1 true "XX" 9 (sched78 (qi 77 0)) =
  Some (Ok ([(7, 7); (7, 3); (3, 3)], [(-1)%Q; 1%Q], [[Some (8%Q, 0%Q); Some (20%Q, 0%Q)]; [Some (8%Q, 0%Q); Some (20%Q, 0%Q)]; [Some (8%Q, 0%Q); Some (20%Q, 0%Q)]])).
Proof. vm_compute. reflexivity. Qed.
Lemma C78_cross_example_proof :
  run78 4 [[qi 1 0; qi 2 0; qi 3 0; qi 4 0]; [qi 0 1; qi 0 1; qi 0 1; qi 0 3]; [qi 1 0; qi 1 0; qi 1 0; qi 2 0]; [qi 1 1; qi 1 0; qi 0 0; qi 1 0]]
    [late 0 7 0; late 1 7 0; late 0 3 0; late 1 3 0] 2 2 false "XY" 0 (mkS [5; 4; 3; 2; 1; 0] [0; 1; 2; 3; 4; 5] [0; 1; 2] (fun _ => qi 77 0) (fun _ => qi 77 0)) =
  Some (Ok ([(7, 3)], [(-1)%Q; 1%Q], [[Some (0%Q, (1 # 3)%Q); Some (6%Q, (-1)%Q)]])).
Proof. vm_compute. reflexivity. Qed.

(** C78: the condition that the overlap divide the length of the transform is needed.  With a length of 3 and an overlap of 2, the last of four windows
    of five samples reads what lies behind the array. *)
Lemma C78_overlap_refuted_proof :
  let run junk := shown78 (fx_master (fun _ _ l => l) (fun _ _ => 1%Qc) quarter (fun _ => 1%Qc) (fun _ _ _ => 1%Qc) 5 [[qi 1 0; qi 1 0; qi 1 0; qi 1 0; qi 1 0]]
    [late 0 1 0] true 3 2 true None false (qz 4) (qz 1) "XX" false 0 (mkS [0; 1; 2; 3] [] [0] (fun _ => junk) (fun _ => junk))) in
  run (qi 0 0) <> run (qi 5 0) /\ (exists r, run (qi 0 0) = Some (Ok r)) /\ (exists r, run (qi 5 0) = Some (Ok r)).
Proof. cbv zeta. split; [|split]; [vm_compute; discriminate|eexists; vm_compute; reflexivity|eexists; vm_compute; reflexivity]. Qed.
(** C78: an overlap larger than the length of the transform kills the program: a division by zero outside Python. *)
Lemma C78_overlap_killed_proof : run78 6 sig78 [late 0 7 0; late 0 3 1] 2 3 true "XX" 0 (sched78 (qi 0 0)) = None.
Proof. vm_compute. reflexivity. Qed.
(** C78: the condition on the order of the stands is needed when auto-correlations are left out.  With the stands of Y in the opposite order of those of X, the
    list has one baseline, the data two rows, and the row of the baseline listed is not among them. *)
Lemma C78_order_refuted_proof :
  run78 2 [[qi 1 0; qi 1 0]; [qi 2 0; qi 2 0]; [qi 5 0; qi 5 0]; [qi 7 0; qi 7 0]] [late 0 1 0; late 0 2 0; late 1 2 0; late 1 1 0] 2 1 false "XY" 0
    (mkS [0; 1] [0; 1] [0; 1; 2] (fun _ => qi 0 0) (fun _ => qi 0 0)) =
  Some (Ok ([(1, 1)], [(-1)%Q; 1%Q], [[Some (0%Q, 0%Q); Some (20%Q, 0%Q)]; [Some (0%Q, 0%Q); Some (56%Q, 0%Q)]])).
Proof. vm_compute. reflexivity. Qed.
(** C78: two polarizations whose largest delays differ by enough for one window are not correlated at all. *)
Lemma C78_counts_refuted_proof :
  run78 4 [[qi 1 0; qi 1 0; qi 1 0; qi 1 0]; [qi 1 0; qi 1 0; qi 1 0; qi 1 0]] [late 0 1 0; late 1 1 1] 2 1 true "XY" 0
    (mkS [0; 1] [0] [0] (fun _ => qi 0 0) (fun _ => qi 0 0)) = Some (Raise RuntimeError).
Proof. vm_compute. reflexivity. Qed.

(** C78: a polarization name that is not two of the letters X, Y, R and L, in either case, is refused. *)
Lemma C78_polarization_names_proof : forall F pw E norm rgain n signals ants cplx LFFT ov auto window pfb rate f0 pol gain clip s,
  (forall c1 c2 p1 p2, pol = String c1 (String c2 "") -> pol_number c1 = Some p1 -> pol_number c2 = Some p2 -> False) ->
  exists e, fx_master F pw E norm rgain n signals ants cplx LFFT ov auto window pfb rate f0 pol gain clip s = Some (Raise e).
Proof.
  intros F pw E norm rgain n signals ants cplx LFFT ov auto window pfb rate f0 pol gain clip s H.
  assert (G : exists e, two_pols pol = Raise e).
  { assert (K : forall c rest, (exists p, pol_number c = Some p /\ pol_to_pols (String c rest) = bind (pol_to_pols rest) (fun l => Ok (p :: l))) \/ pol_to_pols (String c rest) = Raise RuntimeError).
    { intros c rest. cbn [pol_to_pols]. destruct c as [[] [] [] [] [] [] [] []]; vm_compute; first [right; reflexivity|left; eexists; split; [reflexivity|reflexivity]]. }
    unfold two_pols. destruct pol as [|c1 pol]; [eexists; reflexivity|]. destruct (K c1 pol) as [(p1 & P1 & ->)| ->]; [|eexists; reflexivity].
    destruct pol as [|c2 pol]; [eexists; reflexivity|]. destruct (K c2 pol) as [(p2 & P2 & ->)| ->]; [|eexists; reflexivity].
    destruct pol as [|c3 pol]; [exfalso; eapply H; eauto|]. destruct (K c3 pol) as [(p3 & P3 & ->)| ->]; [|eexists; reflexivity].
    destruct (pol_to_pols pol); eexists; reflexivity. }
  destruct G as [e G]. exists e. unfold fx_master. rewrite G. reflexivity.
Qed.

(** C78: the name XZ. *)
Lemma C78_polarization_names_example_proof : forall c1 c2 p1 p2, "XZ"%string = String c1 (String c2 "") -> pol_number c1 = Some p1 -> pol_number c2 = Some p2 -> False.
Proof.
  intros c1 c2 p1 p2 H _ P. injection H as _ <-. discriminate.
Qed.
