(** Property theorems (generated from P_CorrXT.v by tools/gen_theorems.py). *)
From Coq Require Import Ascii String List ZArith QArith Qcanon Qround Bool Lia Permutation.
From Verif Require Import LibList M_Py M_Base P_Base M_Corr M_CorrPy S_Corr P_Corr P_CorrSpec P_CorrPsd P_CorrPick P_CorrF P_CorrX P_CorrFX P_CorrAl P_CorrT P_CorrXT.
Import ListNotations.
Open Scope Z_scope.

(** C78: FXMaster.  When the overlap divides the length of the transform, the row of every baseline is, channel by channel, the mean of the transform of
    the first signal times the conjugate of that of the second over the windows that fit in the data, without those with a
    clipped sample, each signal delayed by the delay of its antenna: by whole samples as far as possible, by a rotation for the rest.
    The rows come in the order of the baseline list, which has all pairs; for this the antennas of the two polarizations must be listed in the same
    order of stands, unless auto-correlations are kept.  It holds for every memory around the arrays and every order of the parallel loops. *)
Theorem C78_correlation : forall F pw E norm rgain n signals ants (cplx : bool) LFFT ov auto window (pfb : bool) rate f0 c1 c2 pol1 pol2 (gain : bool) clip s baselines freq out (d : ant) step,
  let L := if cplx then LFFT else 2 * LFFT in
  0 < LFFT -> 0 <= n -> (0 < rate)%Qc -> 0 < ov -> L = step * ov -> (forall x : list C, In x signals -> zlen x = n) -> zlen signals = zlen ants ->
  pol_number c1 = Some pol1 -> pol_number c2 = Some pol2 ->
  let I1 := positions (fun a => a_pol a =? pol1) ants in let I2 := positions (fun a => a_pol a =? pol2) ants in
  let A i := znth d i ants in
  (auto = false -> forall i j, 0 <= i < zlen I1 -> 0 <= j < zlen I1 -> (a_stand (A (znth 0 i I1)) = a_stand (A (znth 0 j I2)) <-> i = j)) ->
  fx_master F pw E norm rgain n signals ants cplx LFFT ov auto window pfb rate f0 (String c1 (String c2 "")) gain clip s = Some (Ok (baselines, freq, out)) ->
  zlen I2 = zlen I1 /\ baselines = map (fun q => (A (znth 0 (fst q) I1), A (znth 0 (snd q) I2))) (pair_list auto (zlen I1)) /\ zlen out = zlen baselines /\
  zlen freq = LFFT /\ (forall k, 0 <= k < LFFT -> znth 0%Qc k freq = if cplx then (f0 + bin_freq LFFT rate (shifted_bin LFFT k))%Qc else bin_freq (2 * LFFT) rate k) /\
  exists tmin dmax, let fr := znth 0%Qc (LFFT / 2) freq in let tau i f := (a_delay (A i) f - tmin)%Qc in
    least (map (fun i => a_delay (A i) fr) (I1 ++ I2)) tmin /\ greatest (map (fun i => lag rate fr (tau i)) I1) dmax /\
    let m := zlen (starts L (n - dmax) step) in
    (Permutation (ord1 s) (upto 0 (zlen I1 * m)) -> Permutation (ord2 s) (upto 0 (zlen I1 * m)) -> Permutation (ordX s) (upto 0 (zlen (pair_list true (zlen I1)))) ->
     forall r i j k, 0 <= r < zlen baselines -> znth (0, 0) r (pair_list auto (zlen I1)) = (i, j) -> 0 <= k < LFFT ->
     let p := znth 0 i I1 in let q := znth 0 j I2 in let f := znth 0%Qc k freq in
     znth None k (znth [] r out) =
     option_map (fun z => if gain then c_times z (rgain (A p) (A q) f, 0%Qc) else z)
       (correlation E (norm L) (F (negb cplx) LFFT) L (if pfb then 4 else 1) (if pfb then Some (pw (L * 4)) else match window with Some w => Some (w L) | None => None end)
          clip step rate fr dmax f (if cplx then shifted_bin LFFT k else k) (znth [] p signals) (znth [] q signals) (tau p) (tau q))).
Proof. exact C78_correlation_proof. Qed.
Print Assumptions C78_correlation.

(** C78: the whole-sample part of a delay is within half a sample of it at the reference frequency. *)
Theorem C78_lag : forall rate fref tau,
  (num (lag rate fref tau) - Q2Qc (1 # 2) <= tau fref * rate)%Qc /\ (tau fref * rate < num (lag rate fref tau) + Q2Qc (1 # 2))%Qc.
Proof. exact C78_lag_proof. Qed.
Print Assumptions C78_lag.

(** C78: what the correlation means.  Two antennas receive the same signal, d1 and d2 samples late; if the receiver moved the frequency fc to zero, the delay
    also turned the phase of each.  When the antennas' delays say just this, the correlation of the two is the mean power of the signal: the
    shifts and the rotations bring them together, and no phase is left.  [E] is a character with values of magnitude one, and the transform
    is linear for these. *)
Theorem C78_aligned : forall E norm F L taps w level step rate fref dmax fc b (s x1 x2 : list complex) d1 d2 tau1 tau2,
  let ph d := E (- (fc * (num d / rate)))%Qc in let f := (fc + bin_freq L rate b)%Qc in
  0 < L -> 0 < taps -> 0 < step -> (0 < rate)%Qc -> 0 <= d1 <= dmax -> 0 <= d2 <= dmax ->
  (forall x y, E (x + y)%Qc = c_times (E x) (E y)) -> E 0%Qc = (1%Qc, 0%Qc) -> (forall x, power (E x) = 1%Qc) ->
  (forall d l, F (map (c_times (ph d)) l) = map (c_times (ph d)) (F l)) ->
  zlen x1 = zlen s -> zlen x2 = zlen s ->
  (forall q, 0 <= q < zlen s -> znth (0%Qc, 0%Qc) q x1 = c_times (ph d1) (sample s (q - d1))) ->
  (forall q, 0 <= q < zlen s -> znth (0%Qc, 0%Qc) q x2 = c_times (ph d2) (sample s (q - d2))) ->
  (tau1 fref = num d1 / rate)%Qc -> (tau1 f = num d1 / rate)%Qc -> (tau2 fref = num d2 / rate)%Qc -> (tau2 f = num d2 / rate)%Qc ->
  correlation E norm F L taps w level step rate fref dmax f b x1 x2 tau1 tau2 =
  option_map (fun v => ((norm * norm * v)%Qc, 0%Qc))
    (mean (map (fun p => power (bin F L taps w s p b)) (filter (fun p => negb (blanked L taps level s p)) (starts L (zlen s - dmax) step)))).
Proof. exact C78_aligned_proof. Qed.
Print Assumptions C78_aligned.

(** C78: exchanging the antennas conjugates the correlation; an antenna with itself gives the mean power, a real number. *)
Theorem C78_conjugate : forall E norm F L taps w level step rate fref dmax f b (x1 x2 : list complex) tau1 tau2, zlen x2 = zlen x1 ->
  correlation E norm F L taps w level step rate fref dmax f b x1 x2 tau1 tau2 =
  option_map (fun z => (fst z, (- snd z)%Qc)) (correlation E norm F L taps w level step rate fref dmax f b x2 x1 tau2 tau1).
Proof. exact C78_conjugate_proof. Qed.
Print Assumptions C78_conjugate.

Example C78_example :
  run78 6 sig78 [late 0 7 0; late 0 3 1] 2 1 true "XX" 9 (sched78 (qi 77 0)) =
  Some (Ok ([(7, 7); (7, 3); (3, 3)], [(-1)%Q; 1%Q], [[Some (8%Q, 0%Q); Some (20%Q, 0%Q)]; [Some (8%Q, 0%Q); Some (20%Q, 0%Q)]; [Some (8%Q, 0%Q); Some (20%Q, 0%Q)]])).
Proof. exact C78_example_proof. Qed.

Example C78_cross_example :
  run78 4 [[qi 1 0; qi 2 0; qi 3 0; qi 4 0]; [qi 0 1; qi 0 1; qi 0 1; qi 0 3]; [qi 1 0; qi 1 0; qi 1 0; qi 2 0]; [qi 1 1; qi 1 0; qi 0 0; qi 1 0]]
    [late 0 7 0; late 1 7 0; late 0 3 0; late 1 3 0] 2 2 false "XY" 0 (mkS [5; 4; 3; 2; 1; 0] [0; 1; 2; 3; 4; 5] [0; 1; 2] (fun _ => qi 77 0) (fun _ => qi 77 0)) =
  Some (Ok ([(7, 3)], [(-1)%Q; 1%Q], [[Some (0%Q, (1 # 3)%Q); Some (6%Q, (-1)%Q)]])).
Proof. exact C78_cross_example_proof. Qed.

(** C78: the condition that the overlap divide the length of the transform is needed.  With a length of 3 and an overlap of 2, the last of four windows
    of five samples reads what lies behind the array. *)
Theorem C78_overlap_refuted :
  let run junk := shown78 (fx_master (fun _ _ l => l) (fun _ _ => 1%Qc) quarter (fun _ => 1%Qc) (fun _ _ _ => 1%Qc) 5 [[qi 1 0; qi 1 0; qi 1 0; qi 1 0; qi 1 0]]
    [late 0 1 0] true 3 2 true None false (qz 4) (qz 1) "XX" false 0 (mkS [0; 1; 2; 3] [] [0] (fun _ => junk) (fun _ => junk))) in
  run (qi 0 0) <> run (qi 5 0) /\ (exists r, run (qi 0 0) = Some (Ok r)) /\ (exists r, run (qi 5 0) = Some (Ok r)).
Proof. exact C78_overlap_refuted_proof. Qed.
Print Assumptions C78_overlap_refuted.

(** C78: an overlap larger than the length of the transform kills the program: a division by zero outside Python. *)
Theorem C78_overlap_killed : run78 6 sig78 [late 0 7 0; late 0 3 1] 2 3 true "XX" 0 (sched78 (qi 0 0)) = None.
Proof. exact C78_overlap_killed_proof. Qed.
Print Assumptions C78_overlap_killed.

(** C78: the condition on the order of the stands is needed when auto-correlations are left out.  With the stands of Y in the opposite order of those of X, the
    list has one baseline, the data two rows, and the row of the baseline listed is not among them. *)
Theorem C78_order_refuted :
  run78 2 [[qi 1 0; qi 1 0]; [qi 2 0; qi 2 0]; [qi 5 0; qi 5 0]; [qi 7 0; qi 7 0]] [late 0 1 0; late 0 2 0; late 1 2 0; late 1 1 0] 2 1 false "XY" 0
    (mkS [0; 1] [0; 1] [0; 1; 2] (fun _ => qi 0 0) (fun _ => qi 0 0)) =
  Some (Ok ([(1, 1)], [(-1)%Q; 1%Q], [[Some (0%Q, 0%Q); Some (20%Q, 0%Q)]; [Some (0%Q, 0%Q); Some (56%Q, 0%Q)]])).
Proof. exact C78_order_refuted_proof. Qed.
Print Assumptions C78_order_refuted.

(** C78: two polarizations whose largest delays differ by enough for one window are not correlated at all. *)
Theorem C78_counts_refuted :
  run78 4 [[qi 1 0; qi 1 0; qi 1 0; qi 1 0]; [qi 1 0; qi 1 0; qi 1 0; qi 1 0]] [late 0 1 0; late 1 1 1] 2 1 true "XY" 0
    (mkS [0; 1] [0] [0] (fun _ => qi 0 0) (fun _ => qi 0 0)) = Some (Raise RuntimeError).
Proof. exact C78_counts_refuted_proof. Qed.
Print Assumptions C78_counts_refuted.

(** C78: a polarization name that is not two of the letters X, Y, R and L, in either case, is refused. *)
Theorem C78_polarization_names : forall F pw E norm rgain n signals ants cplx LFFT ov auto window pfb rate f0 pol gain clip s,
  (forall c1 c2 p1 p2, pol = String c1 (String c2 "") -> pol_number c1 = Some p1 -> pol_number c2 = Some p2 -> False) ->
  exists e, fx_master F pw E norm rgain n signals ants cplx LFFT ov auto window pfb rate f0 pol gain clip s = Some (Raise e).
Proof. exact C78_polarization_names_proof. Qed.
Print Assumptions C78_polarization_names.

(** C78: the name XZ. *)
Example C78_polarization_names_example : forall c1 c2 p1 p2, "XZ"%string = String c1 (String c2 "") -> pol_number c1 = Some p1 -> pol_number c2 = Some p2 -> False.
Proof. exact C78_polarization_names_example_proof. Qed.
