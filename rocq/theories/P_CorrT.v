From Coq Require Import Ascii String List ZArith QArith Qcanon Bool Lia Permutation.
From Verif Require Import LibList M_Py M_Base P_Base M_Corr M_CorrPy S_Corr P_Corr P_CorrSpec P_CorrPsd P_CorrStokes P_CorrPick.
Import ListNotations.
Open Scope Z_scope.

(** C76: SpecMaster gives, for every antenna and channel, the mean over the whole windows of that antenna's own samples, without those that
    contain a clipped sample, of the power of the windowed transform divided by its length; not a number if no window is left.  Complex data
    are shown from the lowest frequency up.  This holds for every array around the data and every order of the parallel loop. *)
Lemma C76_spectra_proof : forall F pw n signals cplx LFFT window pfb rate f0 clip junk order freq out,
  0 < LFFT -> 0 <= n -> (forall x, In x signals -> zlen x = n) -> Permutation order (upto 0 (zlen signals)) ->
  spec_master F pw n signals cplx LFFT window pfb rate f0 clip junk order = Some (Ok (freq, out)) ->
  let L := if cplx then LFFT else 2 * LFFT in
  zlen out = zlen signals /\ (forall r, In r out -> zlen r = LFFT) /\
  forall i k, 0 <= i < zlen signals -> 0 <= k < LFFT ->
    znth None k (znth [] i out) =
    psd (F (negb cplx) LFFT) L (if pfb then 4 else 1) (if pfb then Some (pw (L * 4)) else match window with Some w => Some (w L) | None => None end)
      clip L (znth [] i signals) (if cplx then shifted_bin LFFT k else k).
Proof.
  intros F pw n signals cplx LFFT window pfb rate f0 clip junk order freq out HL Hn Hr Hp H L. rewrite upto_range in Hp.
  unfold spec_master in H. destruct ((match window with Some _ => true | None => false end) && pfb); [discriminate|]. cbv zeta in H.
  assert (EL : fft_len cplx LFFT = L) by (unfold fft_len, L; destruct cplx; lia). rewrite EL in H.
  assert (HL' : 0 < L) by (unfold L; destruct cplx; lia).
  rewrite (count_exact n 0 L 1 L) in H by lia. rewrite Z.sub_0_r in H.
  apply (f_equal (fun o => match o with Some (Ok (_, x)) => x | _ => [] end)) in H. rewrite <- H. clear H.
  pose proof (zlen_nonneg signals). split; [apply cells_len; lia|]. split; [intros r; apply cells_row_len; lia|].
  intros i k Hi Hk. rewrite cells_at by assumption. rewrite Z.add_0_l.
  assert (Ew : weights_of pw pfb L window = if pfb then Some (pw (L * 4)) else match window with Some w => Some (w L) | None => None end)
    by (unfold weights_of; destruct pfb, window; reflexivity).
  assert (Et : taps_of pfb = if pfb then 4 else 1) by (unfold taps_of; destruct pfb; reflexivity).
  rewrite Ew, Et. assert (Ht : 0 < (if pfb then 4 else 1)) by (destruct pfb; lia). clear Ew Et.
  destruct (Z.le_gt_cases 0 (n / L - 1 + 1)) as [Hf|Hf].
  - rewrite (compute_spec_at _ _ HL _ _ _ _ _ _ _ _ _ _ (zlen signals)) by assumption.
    rewrite (spec_cell_psd (F (negb cplx) LFFT) L (if pfb then 4 else 1) clip _ n signals junk 1 L) by (try assumption; lia).
    unfold source. reflexivity.
  - pose proof (Z.div_pos n L Hn HL'). lia.
Qed.

(** The frequency of each channel is that of the bin it shows. *)
Lemma C76_frequencies_proof : forall F pw n signals cplx LFFT window pfb rate f0 clip junk order freq out,
  0 < LFFT -> rate <> 0%Qc ->
  spec_master F pw n signals cplx LFFT window pfb rate f0 clip junk order = Some (Ok (freq, out)) ->
  zlen freq = LFFT /\ forall k, 0 <= k < LFFT ->
    znth 0%Qc k freq = if cplx then (f0 + bin_freq LFFT rate (shifted_bin LFFT k))%Qc else bin_freq (2 * LFFT) rate k.
Proof.
  intros F pw n signals cplx LFFT window pfb rate f0 clip junk order freq out HL Hr H.
  unfold spec_master in H. destruct ((match window with Some _ => true | None => false end) && pfb); [discriminate|]. cbv zeta in H.
  destruct (count_ffts _ _ _ _); [|discriminate].
  apply (f_equal (fun o => match o with Some (Ok (x, _)) => x | _ => [] end)) in H. rewrite <- H. clear H.
  split; [apply frequencies_len; exact HL|]. intros k Hk. apply frequencies_at; assumption.
Qed.

(** SpecMaster always answers: RuntimeError exactly if both a window and the filter bank are asked for. *)
Lemma C76_answer_proof : forall F pw n signals cplx LFFT window pfb rate f0 clip junk order, 0 < LFFT ->
  let r := spec_master F pw n signals cplx LFFT window pfb rate f0 clip junk order in
  (window <> None /\ pfb = true /\ r = Some (Raise RuntimeError)) \/ ((window = None \/ pfb = false) /\ exists freq out, r = Some (Ok (freq, out))).
Proof.
  intros F pw n signals cplx LFFT window pfb rate f0 clip junk order HL r. unfold r, spec_master.
  assert (G : exists c, count_ffts n 0 (fft_len cplx LFFT) 1 = Some c).
  { unfold count_ffts, fft_len. cbn [Z.eqb]. rewrite Z.quot_1_r. destruct (Z.eqb_spec ((if cplx then 1 else 2) * LFFT) 0); [destruct cplx; lia|]. eexists. reflexivity. }
  destruct G as [c G]. cbv zeta. rewrite G.
  destruct window as [w|], pfb; cbn [andb].
  - left. split; [discriminate|]. split; reflexivity.
  - right. split; [right; reflexivity|]. eexists. eexists. reflexivity.
  - right. split; [left; reflexivity|]. eexists. eexists. reflexivity.
  - right. split; [left; reflexivity|]. eexists. eexists. reflexivity.
Qed.

(** Two antennas, four complex samples, two channels: the transform of two samples is (a + b, a - b).  Antenna 1 has a clipped sample in its
    second window, antenna 2 in both. *)
Definition dft2 (l : list C) : list C := match l with [a; b] => [cadd a b; csub a b] | _ => [] end.
Definition qi (a b : Z) : C := (qz a, qz b).
Definition sig76 : list (list C) := [[qi 1 0; qi 3 1; qi 9 0; qi 1 1]; [qi 0 8; qi 1 1; qi 2 2; qi 7 7]].
Definition shown (r : option (res (list Qc * list (list (option Qc))))) : option (list Q * list (list (option Q))) :=
  match r with Some (Ok (f, o)) => Some (map this f, map (map (option_map this)) o) | _ => None end.
Lemma C76_spectra_example_proof :
  shown (spec_master (fun _ _ => dft2) (fun _ _ => 1%Qc) 4 sig76 true 2 None false (qz 10) (qz 100) 8 (fun _ => qi 77 0) [1; 0])
  = Some ([95; 100]%Q, [[Some (5 # 2); Some (17 # 2)]; [None; None]]%Q).
Proof. vm_compute. reflexivity. Qed.

(** The rotation of the spectra of complex data with an odd number of channels reads four bytes beyond the end of the result. *)
Lemma C76_shift_overread_refuted_proof : forall nChan nStand, 0 < nChan -> nChan mod 2 = 1 -> 0 < nStand ->
  shift_reads_to nChan (nStand - 1) = 8 * (nChan * nStand) + 4.
Proof.
  intros nChan nStand Hc Ho Hs. unfold shift_reads_to. rewrite Ho. pose proof (Z.div_mod nChan 2 ltac:(lia)).
  replace (8 * nChan) with (4 * nChan * 2) by lia. rewrite Z.div_mul by lia. lia.
Qed.
Lemma C76_shift_even_proof : forall nChan i, 0 < nChan -> nChan mod 2 = 0 -> shift_reads_to nChan i = 8 * (nChan * i + nChan).
Proof.
  intros nChan i Hc Ho. unfold shift_reads_to. rewrite Ho. pose proof (Z.div_mod nChan 2 ltac:(lia)).
  replace (8 * nChan) with (4 * nChan * 2) by lia. rewrite Z.div_mul by lia. lia.
Qed.

(** C77: StokesMaster gives the mean of I, Q, U and V over the windows in which neither X nor Y has a clipped sample; row i pairs the i-th X signal
    with the i-th Y signal of the antenna list. *)
Lemma C77_stokes_proof : forall F pw n signals ants cplx LFFT window pfb rate f0 clip jx jy order freq out,
  0 < LFFT -> 0 <= n -> (forall x, In x signals -> zlen x = n) ->
  let xs := positions (fun a => a_pol a =? 0) ants in let ys := positions (fun a => a_pol a =? 1) ants in
  Permutation order (upto 0 (zlen xs)) ->
  stokes_master F pw n signals ants cplx LFFT window pfb rate f0 clip jx jy order = Some (Ok (freq, out)) ->
  let L := if cplx then LFFT else 2 * LFFT in
  zlen xs = zlen ys /\ zlen out = 4 /\
  forall p i k, 0 <= p < 4 -> 0 <= i < zlen xs -> 0 <= k < LFFT ->
    znth None k (znth [] i (znth [] p out)) =
    stokes_psd (F (negb cplx) LFFT) L (if pfb then 4 else 1) (if pfb then Some (pw (L * 4)) else match window with Some w => Some (w L) | None => None end)
      clip L (znth [] (znth 0 i xs) signals) (znth [] (znth 0 i ys) signals) p (if cplx then shifted_bin LFFT k else k).
Proof.
  intros F pw n signals ants cplx LFFT window pfb rate f0 clip jx jy order freq out HL Hn Hr xs ys Hp H L. rewrite upto_range in Hp.
  unfold stokes_master in H. cbv zeta in H. rewrite !index_positions in H. fold xs ys in H.
  destruct (Z.eqb_spec (zlen xs) (zlen ys)) as [Exy|]; [|discriminate]. cbn [negb] in H.
  destruct ((match window with Some _ => true | None => false end) && pfb); [discriminate|].
  destruct (take_rows signals xs) as [rx|] eqn:Erx; [|discriminate]. destruct (take_rows signals ys) as [ry|] eqn:Ery; [|discriminate].
  assert (Px : forall i, In i xs -> 0 <= i) by (intros i Hi; apply positions_in in Hi; lia).
  assert (Py : forall i, In i ys -> 0 <= i) by (intros i Hi; apply positions_in in Hi; lia).
  destruct (take_rows_ok _ [] _ _ _ Px Erx) as [Ex Bx]. destruct (take_rows_ok _ [] _ _ _ Py Ery) as [Ey By].
  assert (EL : fft_len cplx LFFT = L) by (unfold fft_len, L; destruct cplx; lia). rewrite EL in H.
  assert (HL' : 0 < L) by (unfold L; destruct cplx; lia).
  rewrite (count_exact n 0 L 1 L) in H by lia. rewrite Z.sub_0_r in H.
  apply (f_equal (fun o => match o with Some (Ok (_, x)) => x | _ => [] end)) in H. rewrite <- H. clear H.
  assert (Lx : zlen rx = zlen xs) by (rewrite Ex; apply zlen_map). assert (Ly : zlen ry = zlen ys) by (rewrite Ey; apply zlen_map).
  split; [exact Exy|]. split; [rewrite zlen_map; reflexivity|].
  intros p i k Hpp Hi Hk. rewrite (znth_map _ _ _ 0) by (rewrite range_len; lia). rewrite znth_range' by lia. rewrite Z.add_0_l.
  rewrite cells_at by lia. rewrite Lx.
  assert (Ew : weights_of pw pfb L window = if pfb then Some (pw (L * 4)) else match window with Some w => Some (w L) | None => None end)
    by (unfold weights_of; destruct pfb, window; reflexivity).
  assert (Et : taps_of pfb = if pfb then 4 else 1) by (unfold taps_of; destruct pfb; reflexivity).
  rewrite Ew, Et. assert (Ht : 0 < (if pfb then 4 else 1)) by (destruct pfb; lia). clear Ew Et.
  pose proof (Z.div_pos n L Hn HL').
  change (p * LFFT * zlen xs + LFFT * i + k) with (adr LFFT (zlen xs) i p k).
  rewrite compute_stokes_at by (try assumption; lia).
  assert (Rx : forall r, In r rx -> zlen r = n).
  { intros r Hrr. rewrite Ex in Hrr. apply in_map_iff in Hrr. destruct Hrr as (q & <- & Hq). apply Hr. apply znth_In. split; [apply Px; exact Hq|apply Bx; exact Hq]. }
  assert (Ry : forall r, In r ry -> zlen r = n).
  { intros r Hrr. rewrite Ey in Hrr. apply in_map_iff in Hrr. destruct Hrr as (q & <- & Hq). apply Hr. apply znth_In. split; [apply Py; exact Hq|apply By; exact Hq]. }
  rewrite (stokes_cell_psd (F (negb cplx) LFFT) L (if pfb then 4 else 1) clip _ n rx ry jx jy) by (try assumption; lia).
  rewrite Ex, Ey. rewrite !(znth_map _ _ _ 0) by lia. unfold source. reflexivity.
Qed.

(** In every cell I^2 is at least Q^2 + U^2 + V^2, and the four cells are numbers together. *)
Lemma C77_bound_proof : forall F L taps w level step x y b, 0 < L ->
  let S p := stokes_psd F L taps w level step x y p b in
  match S 0, S 1, S 2, S 3 with
  | Some i, Some q, Some u, Some v => (q * q + u * u + v * v <= i * i)%Qc
  | None, None, None, None => True
  | _, _, _, _ => False
  end.
Proof.
  intros F L taps w level step x y b HL S. unfold S, stokes_psd.
  generalize (filter (fun s => negb (blanked L taps level x s) && negb (blanked L taps level y s)) (starts L (zlen x) step)). intros [|j l]; [exact I|].
  pose (T := fun p => total (map (fun s => stokes p (bin F L taps w x s b) (bin F L taps w y s b)) (j :: l))).
  assert (Hm : forall p, mean (map (fun s => stokes p (bin F L taps w x s b) (bin F L taps w y s b)) (j :: l)) = Some (T p / num (zlen (j :: l)))%Qc).
  { intro p. unfold T, mean. cbn [map]. do 2 f_equal. rewrite !zlen_cons, zlen_map. reflexivity. }
  assert (B : (T 1%Z * T 1%Z + T 2%Z * T 2%Z + T 3%Z * T 3%Z <= T 0%Z * T 0%Z)%Qc) by exact (stokes_bound (fun s => bin F L taps w x s b) (fun s => bin F L taps w y s b) (j :: l)).
  rewrite !Hm. cbn [option_map]. clear Hm. clearbody T. generalize dependent (T 0). generalize (T 1) (T 2) (T 3). intros q u v i B.
  set (c := (/ num (zlen (j :: l)) / num L)%Qc).
  assert (D : forall t, (t / num (zlen (j :: l)) / num L = t * c)%Qc) by (intro t; unfold c, Qcdiv; ring). rewrite !D.
  replace (q * c * (q * c) + u * c * (u * c) + v * c * (v * c))%Qc with ((q * q + u * u + v * v) * (c * c))%Qc by ring.
  replace (i * c * (i * c))%Qc with (i * i * (c * c))%Qc by ring. apply Qcmult_le_compat_r; [exact B|apply Qc_sq_nonneg].
Qed.
(** Both members of a pair belong to the same stand if the stands of the X antennas and of the Y antennas come in the same order. *)
Lemma C77_pairs_proof : forall ants d i,
  let xs := positions (fun a => a_pol a =? 0) ants in let ys := positions (fun a => a_pol a =? 1) ants in
  map a_stand (filter (fun a => a_pol a =? 0) ants) = map a_stand (filter (fun a => a_pol a =? 1) ants) -> 0 <= i < zlen xs ->
  a_stand (znth d (znth 0 i xs) ants) = a_stand (znth d (znth 0 i ys) ants) /\ a_pol (znth d (znth 0 i xs) ants) = 0 /\ a_pol (znth d (znth 0 i ys) ants) = 1.
Proof.
  intros ants d i xs ys H Hi.
  assert (Lxy : zlen xs = zlen ys).
  { unfold xs, ys. rewrite !positions_len. apply (f_equal (@length Z)) in H. rewrite !map_length in H. unfold zlen. lia. }
  rewrite <- !(positions_pick ant d) in H. fold xs ys in H. rewrite !map_map in H.
  assert (Gx := znth_map Z Z (fun x => a_stand (znth d x ants)) 0 0 i xs Hi). assert (Gy := znth_map Z Z (fun x => a_stand (znth d x ants)) 0 0 i ys ltac:(lia)).
  rewrite H in Gx. rewrite Gx in Gy. split; [exact Gy|].
  assert (K : forall p j, In j (positions (fun a => a_pol a =? p) ants) -> a_pol (znth d j ants) = p).
  { intros p j Hj. assert (In (znth d j ants) (filter (fun a => a_pol a =? p) ants)) by (rewrite <- (positions_pick ant d); apply (in_map (fun i => znth d i ants)); exact Hj).
    apply filter_In in H0. destruct H0 as [_ H0]. lia. }
  split; apply K; apply znth_In; [exact Hi|]. fold ys. lia.
Qed.
(** Different numbers of X and Y antennas are refused. *)
Lemma C77_counts_proof : forall F pw n signals ants cplx LFFT window pfb rate f0 clip jx jy order,
  zlen (filter (fun a => a_pol a =? 0) ants) <> zlen (filter (fun a => a_pol a =? 1) ants) ->
  stokes_master F pw n signals ants cplx LFFT window pfb rate f0 clip jx jy order = Some (Raise RuntimeError).
Proof.
  intros. unfold stokes_master. cbv zeta. rewrite !index_positions, !positions_len. destruct (Z.eqb_spec (zlen (filter (fun a => a_pol a =? 0) ants)) (zlen (filter (fun a => a_pol a =? 1) ants))); [contradiction|]. reflexivity.
Qed.
Definition mk (p s : Z) : ant := mkA p s (fun _ => 0%Qc).
Definition shown77 (r : option (res (list Qc * list (list (list (option Qc)))))) : option (list (list (list (option Q)))) :=
  match r with Some (Ok (f, o)) => Some (map (map (map (option_map this))) o) | _ => None end.
Definition sig77 : list (list C) := [[qi 1 0; qi 3 1]; [qi 0 8; qi 1 1]; [qi 2 0; qi 0 0]; [qi 1 2; qi 3 4]].
Lemma C77_stokes_example_proof :
  shown77 (stokes_master (fun _ _ => dft2) (fun _ _ => 1%Qc) 2 sig77 [mk 0 1; mk 1 1; mk 0 2; mk 1 2] true 2 None false (qz 10) (qz 100) 9 (fun _ => qi 77 0) (fun _ => qi 7 0) [1; 0])
  = Some [[[Some (55 # 2); Some (99 # 2)]; [Some 6; Some (28)]];
          [[Some (- 45 # 2); Some (- 65 # 2)]; [Some (-2); Some (- 24)]];
          [[Some (- 5); Some 13]; [Some (-4); Some 8]];
          [[Some 15; Some (- 35)]; [Some 4; Some (-12)]]]%Q.
Proof. vm_compute. reflexivity. Qed.

(** The pairing does not look at the stands: with the Y antennas in another order, the X signal of stand 1 is combined with the Y signal of
    stand 2 (here the signals of each stand agree in X and Y, so Q should be 0). *)
Lemma C77_pairs_refuted_proof :
  shown77 (stokes_master (fun _ _ => dft2) (fun _ _ => 1%Qc) 2 [[qi 1 0; qi 1 0]; [qi 3 0; qi 3 0]; [qi 3 0; qi 3 0]; [qi 1 0; qi 1 0]]
     [mk 0 1; mk 0 2; mk 1 2; mk 1 1] true 2 None false (qz 10) (qz 100) 0 (fun _ => c0) (fun _ => c0) [0; 1])
  = Some [[[Some 0; Some 20]; [Some 0; Some 20]]; [[Some 0; Some (-16)]; [Some 0; Some 16]]; [[Some 0; Some 12]; [Some 0; Some 12]]; [[Some 0; Some 0]; [Some 0; Some 0]]]%Q.
Proof. vm_compute. reflexivity. Qed.
