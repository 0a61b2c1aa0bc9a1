(** Property theorems (generated from P_CorrYT.v by tools/gen_theorems.py). *)
From Coq Require Import Ascii String List ZArith QArith Qcanon Qround Bool Lia Permutation.
From Verif Require Import LibList M_Py M_Base P_Base M_Corr M_CorrPy S_Corr P_Corr P_CorrSpec P_CorrPsd P_CorrPick P_CorrF P_CorrX P_CorrFX P_CorrAl P_CorrT P_CorrXT P_CorrY P_CorrYT.
Import ListNotations.
Open Scope Z_scope.

(** C79: XMaster.  When the stands of each polarization are distinct (and listed in the same order unless auto-correlations are kept), the row of every baseline is, channel
    by channel, the mean over time of the first signal times the conjugate of the second, each rotated by the delay of its antenna
    relative to the smallest delay at the middle frequency. *)
Theorem C79_correlation : forall E rgain freq nChan nTime (signals : list (list (list C))) ants auto c1 c2 pol1 pol2 (gain : bool) orderX baselines out (d : ant),
  0 < nChan -> 0 <= nTime -> zlen signals = zlen ants -> pol_number c1 = Some pol1 -> pol_number c2 = Some pol2 ->
  let I1 := positions (fun a => a_pol a =? pol1) ants in let I2 := positions (fun a => a_pol a =? pol2) ants in
  let A i := znth d i ants in
  NoDup (map (fun i => a_stand (A i)) I1) -> NoDup (map (fun i => a_stand (A i)) I2) ->
  (auto = false -> forall i j, 0 <= i < zlen I1 -> 0 <= j < zlen I1 -> (a_stand (A (znth 0 i I1)) = a_stand (A (znth 0 j I2)) <-> i = j)) ->
  x_master E rgain freq nChan nTime signals ants auto (String c1 (String c2 "")) gain orderX = Ok (baselines, out) ->
  zlen I2 = zlen I1 /\ baselines = map (fun q => (A (znth 0 (fst q) I1), A (znth 0 (snd q) I2))) (pair_list auto (zlen I1)) /\ zlen out = zlen baselines /\
  (0 < zlen baselines -> nChan = zlen freq) /\
  exists tmin, least (map (fun i => a_delay (A i) (znth 0%Qc (zlen freq / 2) freq)) (I1 ++ I2)) tmin /\
    (Permutation orderX (upto 0 (zlen (pair_list true (zlen I1)))) ->
     forall r i j k, 0 <= r < zlen baselines -> znth (0, 0) r (pair_list auto (zlen I1)) = (i, j) -> 0 <= k < nChan ->
     let f := znth 0%Qc k freq in
     let turned p t := c_times (znth (0%Qc, 0%Qc) t (znth [] k (znth [] p signals))) (E (f * (a_delay (A p) f - tmin))%Qc) in
     let p := znth 0 i I1 in let q := znth 0 j I2 in
     znth None k (znth [] r out) =
     option_map (fun z => if gain then c_times z (rgain (A p) (A q) f, 0%Qc) else z)
       (mean_c (map (fun t => times_conj (turned p t) (turned q t)) (upto 0 nTime)))).
Proof. exact C79_correlation_proof. Qed.
Print Assumptions C79_correlation.

(** Two antennas of which the second receives the signal of the first a quarter of a second later. *)
Example C79_example :
  run79 2 sig79 [late 0 7 0; late 0 3 1] true "XX" [2; 0; 1] =
  Ok ([(7, 7); (7, 3); (3, 3)], [[Some (6%Q, 0%Q); Some (2%Q, 0%Q)]; [Some (6%Q, 0%Q); Some (2%Q, 0%Q)]; [Some (6%Q, 0%Q); Some (2%Q, 0%Q)]]).
Proof. exact C79_example_proof. Qed.

(** C79: no samples, no numbers. *)
Example C79_no_samples_example :
  run79 0 [[[]; []]; [[]; []]] [late 0 7 0; late 0 3 1] false "XX" [2; 0; 1] = Ok ([(7, 3)], [[None; None]]).
Proof. exact C79_no_samples_example_proof. Qed.

(** C79: the delays are kept by stand.  Two X antennas of one stand are both rotated by the delay of the second: the same data, delayed as the antennas say, are
    rotated apart. *)
Theorem C79_one_stand_refuted :
  run79 2 sig79 [late 0 7 0; late 0 7 1] true "XX" [2; 0; 1] =
  Ok ([(7, 7); (7, 7); (7, 7)], [[Some (6%Q, 0%Q); Some (2%Q, 0%Q)]; [Some (0%Q, 6%Q); Some ((-2)%Q, 0%Q)]; [Some (6%Q, 0%Q); Some (2%Q, 0%Q)]]).
Proof. exact C79_one_stand_refuted_proof. Qed.
Print Assumptions C79_one_stand_refuted.
