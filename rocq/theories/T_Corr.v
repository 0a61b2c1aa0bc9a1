(** Property theorems (generated from P_CorrT.v by tools/gen_theorems.py). *)
From Coq Require Import Ascii String List ZArith QArith Qcanon Bool Lia Permutation.
From Verif Require Import LibList M_Py M_Base P_Base M_Corr M_CorrPy S_Corr P_Corr P_CorrSpec P_CorrPsd P_CorrStokes P_CorrPick P_CorrT.
Import ListNotations.
Open Scope Z_scope.

(** C76: SpecMaster gives, for every antenna and channel, the mean over the whole windows of that antenna's own samples, without those that
    contain a clipped sample, of the power of the windowed transform divided by its length; not a number if no window is left.  Complex data
    are shown from the lowest frequency up.  This holds for every array around the data and every order of the parallel loop. *)
Theorem C76_spectra : forall F pw n signals cplx LFFT window pfb rate f0 clip junk order freq out,
  0 < LFFT -> 0 <= n -> (forall x, In x signals -> zlen x = n) -> Permutation order (upto 0 (zlen signals)) ->
  spec_master F pw n signals cplx LFFT window pfb rate f0 clip junk order = Some (Ok (freq, out)) ->
  let L := if cplx then LFFT else 2 * LFFT in
  zlen out = zlen signals /\ (forall r, In r out -> zlen r = LFFT) /\
  forall i k, 0 <= i < zlen signals -> 0 <= k < LFFT ->
    znth None k (znth [] i out) =
    psd (F (negb cplx) LFFT) L (if pfb then 4 else 1) (if pfb then Some (pw (L * 4)) else match window with Some w => Some (w L) | None => None end)
      clip L (znth [] i signals) (if cplx then shifted_bin LFFT k else k).
Proof. exact C76_spectra_proof. Qed.
Print Assumptions C76_spectra.

(** The frequency of each channel is that of the bin it shows. *)
Theorem C76_frequencies : forall F pw n signals cplx LFFT window pfb rate f0 clip junk order freq out,
  0 < LFFT -> rate <> 0%Qc ->
  spec_master F pw n signals cplx LFFT window pfb rate f0 clip junk order = Some (Ok (freq, out)) ->
  zlen freq = LFFT /\ forall k, 0 <= k < LFFT ->
    znth 0%Qc k freq = if cplx then (f0 + bin_freq LFFT rate (shifted_bin LFFT k))%Qc else bin_freq (2 * LFFT) rate k.
Proof. exact C76_frequencies_proof. Qed.
Print Assumptions C76_frequencies.

(** SpecMaster always answers: RuntimeError exactly if both a window and the filter bank are asked for. *)
Theorem C76_answer : forall F pw n signals cplx LFFT window pfb rate f0 clip junk order, 0 < LFFT ->
  let r := spec_master F pw n signals cplx LFFT window pfb rate f0 clip junk order in
  (window <> None /\ pfb = true /\ r = Some (Raise RuntimeError)) \/ ((window = None \/ pfb = false) /\ exists freq out, r = Some (Ok (freq, out))).
Proof. exact C76_answer_proof. Qed.
Print Assumptions C76_answer.

Example C76_spectra_example :
  shown (spec_master (fun _ _ => dft2) (fun _ _ => 1%Qc) 4 sig76 true 2 None false (qz 10) (qz 100) 8 (fun _ => qi 77 0) [1; 0])
  = Some ([95; 100]%Q, [[Some (5 # 2); Some (17 # 2)]; [None; None]]%Q).
Proof. exact C76_spectra_example_proof. Qed.

(** The rotation of the spectra of complex data with an odd number of channels reads four bytes beyond the end of the result. *)
Theorem C76_shift_overread_refuted : forall nChan nStand, 0 < nChan -> nChan mod 2 = 1 -> 0 < nStand ->
  shift_reads_to nChan (nStand - 1) = 8 * (nChan * nStand) + 4.
Proof. exact C76_shift_overread_refuted_proof. Qed.
Print Assumptions C76_shift_overread_refuted.

Theorem C76_shift_even : forall nChan i, 0 < nChan -> nChan mod 2 = 0 -> shift_reads_to nChan i = 8 * (nChan * i + nChan).
Proof. exact C76_shift_even_proof. Qed.
Print Assumptions C76_shift_even.

(** C77: StokesMaster gives the mean of I, Q, U and V over the windows in which neither X nor Y has a clipped sample; row i pairs the i-th X signal
    with the i-th Y signal of the antenna list. *)
Theorem C77_stokes : forall F pw n signals ants cplx LFFT window pfb rate f0 clip jx jy order freq out,
  0 < LFFT -> 0 <= n -> (forall x, In x signals -> zlen x = n) ->
  let xs := positions (fun a => a_pol a =? 0) ants in let ys := positions (fun a => a_pol a =? 1) ants in
  Permutation order (upto 0 (zlen xs)) ->
  stokes_master F pw n signals ants cplx LFFT window pfb rate f0 clip jx jy order = Some (Ok (freq, out)) ->
  let L := if cplx then LFFT else 2 * LFFT in
  zlen xs = zlen ys /\ zlen out = 4 /\
  forall p i k, 0 <= p < 4 -> 0 <= i < zlen xs -> 0 <= k < LFFT ->
    znth None k (znth [] i (znth [] p out)) =
    stokes_psd (F (negb cplx) LFFT) L (if pfb then 4 else 1) (if pfb then Some (pw (L * 4)) else match window with Some w => Some (w L) | None => None end)
      clip L (znth [] (znth 0 i xs) signals) (znth [] (znth 0 i ys) signals) p (if cplx then shifted_bin LFFT k else k).
Proof. exact C77_stokes_proof. Qed.
Print Assumptions C77_stokes.

(** In every cell I^2 is at least Q^2 + U^2 + V^2, and the four cells are numbers together. *)
Theorem C77_bound : forall F L taps w level step x y b, 0 < L ->
  let S p := stokes_psd F L taps w level step x y p b in
  match S 0, S 1, S 2, S 3 with
  | Some i, Some q, Some u, Some v => (q * q + u * u + v * v <= i * i)%Qc
  | None, None, None, None => True
  | _, _, _, _ => False
  end.
Proof. exact C77_bound_proof. Qed.
Print Assumptions C77_bound.

(** Both members of a pair belong to the same stand if the stands of the X antennas and of the Y antennas come in the same order. *)
Theorem C77_pairs : forall ants d i,
  let xs := positions (fun a => a_pol a =? 0) ants in let ys := positions (fun a => a_pol a =? 1) ants in
  map a_stand (filter (fun a => a_pol a =? 0) ants) = map a_stand (filter (fun a => a_pol a =? 1) ants) -> 0 <= i < zlen xs ->
  a_stand (znth d (znth 0 i xs) ants) = a_stand (znth d (znth 0 i ys) ants) /\ a_pol (znth d (znth 0 i xs) ants) = 0 /\ a_pol (znth d (znth 0 i ys) ants) = 1.
Proof. exact C77_pairs_proof. Qed.
Print Assumptions C77_pairs.

(** Different numbers of X and Y antennas are refused. *)
Theorem C77_counts : forall F pw n signals ants cplx LFFT window pfb rate f0 clip jx jy order,
  zlen (filter (fun a => a_pol a =? 0) ants) <> zlen (filter (fun a => a_pol a =? 1) ants) ->
  stokes_master F pw n signals ants cplx LFFT window pfb rate f0 clip jx jy order = Some (Raise RuntimeError).
Proof. exact C77_counts_proof. Qed.
Print Assumptions C77_counts.

Example C77_stokes_example :
  shown77 (stokes_master (fun _ _ => dft2) (fun _ _ => 1%Qc) 2 sig77 [mk 0 1; mk 1 1; mk 0 2; mk 1 2] true 2 None false (qz 10) (qz 100) 9 (fun _ => qi 77 0) (fun _ => qi 7 0) [1; 0])
  = Some [[[Some (55 # 2); Some (99 # 2)]; [Some 6; Some (28)]];
          [[Some (- 45 # 2); Some (- 65 # 2)]; [Some (-2); Some (- 24)]];
          [[Some (- 5); Some 13]; [Some (-4); Some 8]];
          [[Some 15; Some (- 35)]; [Some 4; Some (-12)]]]%Q.
Proof. exact C77_stokes_example_proof. Qed.

(** The pairing does not look at the stands: with the Y antennas in another order, the X signal of stand 1 is combined with the Y signal of
    stand 2 (here the signals of each stand agree in X and Y, so Q should be 0). *)
Theorem C77_pairs_refuted :
  shown77 (stokes_master (fun _ _ => dft2) (fun _ _ => 1%Qc) 2 [[qi 1 0; qi 1 0]; [qi 3 0; qi 3 0]; [qi 3 0; qi 3 0]; [qi 1 0; qi 1 0]]
     [mk 0 1; mk 0 2; mk 1 2; mk 1 1] true 2 None false (qz 10) (qz 100) 0 (fun _ => c0) (fun _ => c0) [0; 1])
  = Some [[[Some 0; Some 20]; [Some 0; Some 20]]; [[Some 0; Some (-16)]; [Some 0; Some 16]]; [[Some 0; Some 12]; [Some 0; Some 12]]; [[Some 0; Some 0]; [Some 0; Some 0]]]%Q.
Proof. exact C77_pairs_refuted_proof. Qed.
Print Assumptions C77_pairs_refuted.
