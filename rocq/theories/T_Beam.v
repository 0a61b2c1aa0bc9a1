(** Property theorems (generated from P_BeamT.v by tools/gen_theorems.py). *)
From Coq Require Import List ZArith QArith Qcanon Bool Lia.
From Verif Require Import LibList M_Py M_Base M_Corr M_CorrPy M_Beam S_Corr S_Beam P_Corr P_CorrFX P_CorrPsd P_Beam P_BeamA P_BeamB P_BeamT.
Import ListNotations.
Open Scope Z_scope.

(** C87: for a direction with an altitude of 0 to 90 and an azimuth of 0 to 360 degrees, calc_delay() gives for every antenna and frequency the delay of the cable less the
    way along the direction from the middle of the array, over the speed of light. *)
Theorem C87_delay : forall src light ants freq az alt, in_range az alt -> (exists a, In a ants /\ b_stand a <= 256) ->
  calc_delay src light ants freq az alt = Ok (map (fun a => map (fun f => Some (delay_at (src az alt) light ants a f)) freq) ants).
Proof. exact C87_delay_proof. Qed.
Print Assumptions C87_delay.

Example C87_delay_example : in_range (q 0) (q 45) /\ (exists a, In a ex_ants /\ b_stand a <= 256) /\
  delay_at (ex_src (q 0) (q 45)) (q 10) ex_ants (ba 1 0 33 0 0 0 4) (q 2) = Q2Qc (11 # 3) /\ delay_at (ex_src (q 0) (q 45)) (q 10) ex_ants (ba 2 0 33 0 50 0 4) (q 2) = Q2Qc (2 # 3).
Proof. exact C87_delay_example_proof. Qed.

(** C87: any other direction is a ValueError. *)
Theorem C87_direction : forall src light ants freq az alt, ~ in_range az alt -> calc_delay src light ants freq az alt = Raise ValueError.
Proof. exact C87_direction_proof. Qed.
Print Assumptions C87_direction.

Example C87_direction_example : ~ in_range (q 0) (q 91) /\ ~ in_range (q (-1)) (q 45).
Proof. exact C87_direction_example_proof. Qed.

(** C87: moving the whole array changes nothing. *)
Theorem C87_moved : forall src light ants freq az alt v, calc_delay src light (map (move_ant v) ants) freq az alt = calc_delay src light ants freq az alt.
Proof. exact C87_moved_proof. Qed.
Print Assumptions C87_moved.

(** C87 refuted: if all stands have numbers above 256 every delay is NaN. *)
Theorem C87_outriggers_refuted : forall src light ants freq az alt, in_range az alt -> (forall a, In a ants -> 256 < b_stand a) ->
  calc_delay src light ants freq az alt = Ok (map (fun _ => map (fun _ => None) freq) ants).
Proof. exact C87_outriggers_refuted_proof. Qed.
Print Assumptions C87_outriggers_refuted.

Example C87_outriggers_example : forall a, In a [ba 257 0 33 0 0 0 4; ba 352 0 33 0 50 0 4] -> 256 < b_stand a.
Proof. exact C87_outriggers_example_proof. Qed.

(** C88: phase_and_sum() returns, for each polarization that has a good antenna, the mean over its good antennas of the signals turned by the phases of their delays;
    the smallest delay of all is subtracted first. *)
Theorem C88_beam : forall src light E ants nTime data freq az alt, in_range az alt -> (exists a, In a ants /\ b_stand a <= 256) -> freq <> [] -> zlen data = zlen ants -> 0 <= nTime ->
  let delay := delay_at (src az alt) light ants in
  let good p := existsb (fun a => (b_pol a =? p) && (b_status a =? 33)) ants in
  exists tmin, least (flat_map (fun a => map (delay a) freq) ants) tmin /\
  phase_and_sum src light E ants nTime data freq az alt = Ok (Some (map (beam_of E delay tmin ants freq nTime data)
    (if good 0 then if good 1 then [0; 1] else [0] else [1]))).
Proof. exact C88_beam_proof. Qed.
Print Assumptions C88_beam.

Example C88_beam_example : zlen ex_data = zlen ex_ants /\ [q 2] <> [] /\
  exists b0 b1, phase_and_sum ex_src (q 10) one_phase ex_ants 1 ex_data [q 2] (q 0) (q 45) = Ok (Some [[[b0]]; [[b1]]]) /\ b0 = (q 2, q 1) /\ b1 = (q 6, q 0).
Proof. exact C88_beam_example_proof. Qed.

(** C88: a wave from the direction of the beam, which reaches each antenna with its delay, adds up to itself, apart from a common phase. *)
Theorem C88_coherent : forall E delay tmin ants freq nTime data p k t s, 0 <= k < zlen freq -> 0 <= t < nTime ->
  let good := filter (fun ax => (b_pol (fst ax) =? p) && (b_status (fst ax) =? 33)) (combine ants data) in
  let f := znth 0%Qc k freq in
  (forall x y, E (x + y)%Qc = c_times (E x) (E y)) -> good <> [] ->
  (forall ax, In ax good -> znth (0%Qc, 0%Qc) t (znth [] k (snd ax)) = c_times (E (- (f * delay (fst ax) f))%Qc) s) ->
  znth (0%Qc, 0%Qc) t (znth [] k (beam_of E delay tmin ants freq nTime data p)) = c_times (E (- (f * tmin))%Qc) s.
Proof. exact C88_coherent_proof. Qed.
Print Assumptions C88_coherent.

Example C88_coherent_example : (forall x y, one_phase (x + y)%Qc = c_times (one_phase x) (one_phase y)) /\ (forall x, power (one_phase x) = 1%Qc) /\
  filter (fun ax => (b_pol (fst ax) =? 0) && (b_status (fst ax) =? 33)) (combine ex_ants ex_data) <> [].
Proof. exact C88_coherent_example_proof. Qed.

(** C88: whatever the signals, the power of the beam is at most the mean power of its antennas. *)
Theorem C88_power : forall E delay tmin ants freq nTime data p k t, 0 <= k < zlen freq -> 0 <= t < nTime ->
  let good := filter (fun ax => (b_pol (fst ax) =? p) && (b_status (fst ax) =? 33)) (combine ants data) in
  (forall x, power (E x) = 1%Qc) -> good <> [] ->
  (power (znth (0%Qc, 0%Qc) t (znth [] k (beam_of E delay tmin ants freq nTime data p))) <=
   total (map (fun ax => power (znth (0%Qc, 0%Qc) t (znth [] k (snd ax)))) good) / num (zlen good))%Qc.
Proof. exact C88_power_proof. Qed.
Print Assumptions C88_power.

(** C88: no antennas, or a direction out of range, is a ValueError. *)
Theorem C88_errors : forall src light E ants nTime data freq az alt, ants = [] \/ ~ in_range az alt ->
  phase_and_sum src light E ants nTime data freq az alt = Raise ValueError.
Proof. exact C88_errors_proof. Qed.
Print Assumptions C88_errors.

(** C88 refuted: with no good antenna at all a Y beam of zeros is returned. *)
Theorem C88_no_good_refuted : forall src light E ants nTime data freq az alt, in_range az alt -> (exists a, In a ants /\ b_stand a <= 256) -> freq <> [] -> zlen data = zlen ants -> 0 <= nTime ->
  (forall a, In a ants -> b_status a <> 33) ->
  phase_and_sum src light E ants nTime data freq az alt = Ok (Some [map (fun _ => map (fun _ => (0%Qc, 0%Qc)) (upto 0 nTime)) (upto 0 (zlen freq))]).
Proof. exact C88_no_good_refuted_proof. Qed.
Print Assumptions C88_no_good_refuted.

Example C88_no_good_example : forall a, In a [ba 1 0 32 0 0 0 4; ba 2 1 11 0 50 0 4] -> b_status a <> 33.
Proof. exact C88_no_good_example_proof. Qed.

(** C88: circularize() keeps the power, can be undone, and gives a Stokes V of R less L with the sign of the convention asked for (all apart from the factor of two that the
    division by the root of two takes away). *)
Theorem C88_circular : forall (iau : bool) x y l r, circularize iau x y = (l, r) ->
  (power l + power r = num 2 * (power x + power y))%Qc /\ plus l r = c_times (num 2, 0%Qc) x /\
  (power r - power l = (if iau then 1 else - (1)) * (num 4 * snd (times_conj y x)))%Qc.
Proof. exact C88_circular_proof. Qed.
Print Assumptions C88_circular.

Example C88_circular_example : circularize true (q 1, q 0) (q 0, q 1) = ((q 0, q 0), (q 2, q 0)).
Proof. exact C88_circular_example_proof. Qed.

(** C88 refuted: the Stokes V of the default (IAU) convention, R less L, has the opposite sign of the Stokes V of the spectrometer, for which V is that of X Y*. *)
Theorem C88_stokes_v_refuted : forall x y l r, circularize true x y = (l, r) -> (power r - power l = - (num 2 * stokes 3 x y))%Qc.
Proof. exact C88_stokes_v_refuted_proof. Qed.
Print Assumptions C88_stokes_v_refuted.
