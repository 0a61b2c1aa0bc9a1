(** Theorems about lsl/misc/beamformer.py. *)
From Coq Require Import List ZArith QArith Qcanon Bool Lia.
From Verif Require Import LibList M_Py M_Base M_Corr M_CorrPy M_Beam S_Corr S_Beam P_Corr P_CorrFX P_CorrPsd P_Beam P_BeamA P_BeamB.
Import ListNotations.
Open Scope Z_scope.

(** C87: for a direction with an altitude of 0 to 90 and an azimuth of 0 to 360 degrees, calc_delay() gives for every antenna and frequency the delay of the cable less the
    way along the direction from the middle of the array, over the speed of light. *)
Lemma C87_delay_proof : forall src light ants freq az alt, in_range az alt -> (exists a, In a ants /\ b_stand a <= 256) ->
  calc_delay src light ants freq az alt = Ok (map (fun a => map (fun f => Some (delay_at (src az alt) light ants a f)) freq) ants).
Proof. intros. apply calc_delay_ok; auto. Qed.
Lemma pair_eq (a b c d : Qc) : a = c -> b = d -> (a, b) = (c, d).
Proof. intros -> ->. reflexivity. Qed.
Definition q (z : Z) : Qc := num z.
Definition ba (stand pol status x y z cable : Z) : bant := mkB stand pol status (q x, q y, q z) (fun f => (q cable / f)%Qc).
(** Three antennas, the direction along (0, 3/5, 4/5), a speed of 10: a stand further along the direction has less delay. *)
Definition ex_ants : list bant := [ba 1 0 33 0 0 0 4; ba 2 0 33 0 50 0 4; ba 3 1 33 0 0 25 4; ba 258 1 33 1000 1000 0 4].
Definition ex_src (az alt : Qc) : vec := (0%Qc, Q2Qc (3 # 5), Q2Qc (4 # 5)).
Lemma ex_range : in_range (q 0) (q 45).
Proof. unfold in_range. repeat split; vm_compute; intro X; discriminate X. Qed.
Lemma C87_delay_example_proof : in_range (q 0) (q 45) /\ (exists a, In a ex_ants /\ b_stand a <= 256) /\
  delay_at (ex_src (q 0) (q 45)) (q 10) ex_ants (ba 1 0 33 0 0 0 4) (q 2) = Q2Qc (11 # 3) /\ delay_at (ex_src (q 0) (q 45)) (q 10) ex_ants (ba 2 0 33 0 50 0 4) (q 2) = Q2Qc (2 # 3).
Proof.
  split; [exact ex_range|]. split; [eexists; split; [left; reflexivity|cbn; lia]|]. split; apply Qc_is_canon; vm_compute; reflexivity.
Qed.
(** C87: any other direction is a ValueError. *)
Lemma C87_direction_proof : forall src light ants freq az alt, ~ in_range az alt -> calc_delay src light ants freq az alt = Raise ValueError.
Proof. intros. apply in_range_dec. auto. Qed.
Lemma C87_direction_example_proof : ~ in_range (q 0) (q 91) /\ ~ in_range (q (-1)) (q 45).
Proof. split; intros [[A B] [C D]]; [apply B|apply C]; vm_compute; reflexivity. Qed.
(** C87: moving the whole array changes nothing. *)
Lemma C87_moved_proof : forall src light ants freq az alt v, calc_delay src light (map (move_ant v) ants) freq az alt = calc_delay src light ants freq az alt.
Proof. exact delay_moved. Qed.
(** C87 refuted: if all stands have numbers above 256 every delay is NaN. *)
Lemma C87_outriggers_refuted_proof : forall src light ants freq az alt, in_range az alt -> (forall a, In a ants -> 256 < b_stand a) ->
  calc_delay src light ants freq az alt = Ok (map (fun _ => map (fun _ => None) freq) ants).
Proof. intros. apply calc_delay_nan; auto. Qed.
Lemma C87_outriggers_example_proof : forall a, In a [ba 257 0 33 0 0 0 4; ba 352 0 33 0 50 0 4] -> 256 < b_stand a.
Proof. intros a H. cbn in H. destruct H as [<-|[<-|[]]]; cbn; lia. Qed.

(** C88: phase_and_sum() returns, for each polarization that has a good antenna, the mean over its good antennas of the signals turned by the phases of their delays;
    the smallest delay of all is subtracted first. *)
Lemma C88_beam_proof : forall src light E ants nTime data freq az alt, in_range az alt -> (exists a, In a ants /\ b_stand a <= 256) -> freq <> [] -> zlen data = zlen ants -> 0 <= nTime ->
  let delay := delay_at (src az alt) light ants in
  let good p := existsb (fun a => (b_pol a =? p) && (b_status a =? 33)) ants in
  exists tmin, least (flat_map (fun a => map (delay a) freq) ants) tmin /\
  phase_and_sum src light E ants nTime data freq az alt = Ok (Some (map (beam_of E delay tmin ants freq nTime data)
    (if good 0 then if good 1 then [0; 1] else [0] else [1]))).
Proof. exact beam_ok. Qed.
(** Two X antennas and a Y antenna (and an outrigger), one frequency, one sample: the mean of 1 and 3, with all phases 1. *)
Definition one_phase (x : Qc) : complex := (1%Qc, 0%Qc).
Definition ex_data : list (list (list C)) := [[[(q 1, q 0)]]; [[(q 3, q 2)]]; [[(q 5, q 0)]]; [[(q 7, q 0)]]].
Lemma C88_beam_example_proof : zlen ex_data = zlen ex_ants /\ [q 2] <> [] /\
  exists b0 b1, phase_and_sum ex_src (q 10) one_phase ex_ants 1 ex_data [q 2] (q 0) (q 45) = Ok (Some [[[b0]]; [[b1]]]) /\ b0 = (q 2, q 1) /\ b1 = (q 6, q 0).
Proof.
  split; [reflexivity|]. split; [discriminate|].
  destruct (C88_beam_proof ex_src (q 10) one_phase ex_ants 1 ex_data [q 2] (q 0) (q 45) ex_range) as (tmin & _ & H); [eexists; split; [left; reflexivity|cbn; lia]|discriminate|reflexivity|lia|].
  do 2 eexists. split; [exact H|]. split; apply pair_eq; apply Qc_is_canon; vm_compute; reflexivity.
Qed.
(** C88: a wave from the direction of the beam, which reaches each antenna with its delay, adds up to itself, apart from a common phase. *)
Lemma C88_coherent_proof : forall E delay tmin ants freq nTime data p k t s, 0 <= k < zlen freq -> 0 <= t < nTime ->
  let good := filter (fun ax => (b_pol (fst ax) =? p) && (b_status (fst ax) =? 33)) (combine ants data) in
  let f := znth 0%Qc k freq in
  (forall x y, E (x + y)%Qc = c_times (E x) (E y)) -> good <> [] ->
  (forall ax, In ax good -> znth (0%Qc, 0%Qc) t (znth [] k (snd ax)) = c_times (E (- (f * delay (fst ax) f))%Qc) s) ->
  znth (0%Qc, 0%Qc) t (znth [] k (beam_of E delay tmin ants freq nTime data p)) = c_times (E (- (f * tmin))%Qc) s.
Proof. intros. apply beam_coherent; auto. Qed.
Lemma C88_coherent_example_proof : (forall x y, one_phase (x + y)%Qc = c_times (one_phase x) (one_phase y)) /\ (forall x, power (one_phase x) = 1%Qc) /\
  filter (fun ax => (b_pol (fst ax) =? 0) && (b_status (fst ax) =? 33)) (combine ex_ants ex_data) <> [].
Proof. split; [intros; apply pair_eq; apply Qc_is_canon; reflexivity|]. split; [intro x; apply Qc_is_canon; reflexivity|discriminate]. Qed.
(** C88: whatever the signals, the power of the beam is at most the mean power of its antennas. *)
Lemma C88_power_proof : forall E delay tmin ants freq nTime data p k t, 0 <= k < zlen freq -> 0 <= t < nTime ->
  let good := filter (fun ax => (b_pol (fst ax) =? p) && (b_status (fst ax) =? 33)) (combine ants data) in
  (forall x, power (E x) = 1%Qc) -> good <> [] ->
  (power (znth (0%Qc, 0%Qc) t (znth [] k (beam_of E delay tmin ants freq nTime data p))) <=
   total (map (fun ax => power (znth (0%Qc, 0%Qc) t (znth [] k (snd ax)))) good) / num (zlen good))%Qc.
Proof. intros. apply beam_power; auto. Qed.
(** C88: no antennas, or a direction out of range, is a ValueError. *)
Lemma C88_errors_proof : forall src light E ants nTime data freq az alt, ants = [] \/ ~ in_range az alt ->
  phase_and_sum src light E ants nTime data freq az alt = Raise ValueError.
Proof.
  intros src light E ants nTime data freq az alt [->|H]; [|apply beam_range; exact H].
  destruct (in_range_dec az alt) as [A B]. unfold phase_and_sum. destruct (calc_delay src light [] freq az alt) as [l|e] eqn:EQ.
  - unfold calc_delay in EQ. destruct (_ || _); [discriminate EQ|]. destruct (_ || _); [discriminate EQ|]. injection EQ as <-. reflexivity.
  - unfold calc_delay in EQ. destruct (_ || _); [injection EQ as <-; reflexivity|]. destruct (_ || _); [injection EQ as <-; reflexivity|discriminate EQ].
Qed.
(** C88 refuted: with no good antenna at all a Y beam of zeros is returned. *)
Lemma C88_no_good_refuted_proof : forall src light E ants nTime data freq az alt, in_range az alt -> (exists a, In a ants /\ b_stand a <= 256) -> freq <> [] -> zlen data = zlen ants -> 0 <= nTime ->
  (forall a, In a ants -> b_status a <> 33) ->
  phase_and_sum src light E ants nTime data freq az alt = Ok (Some [map (fun _ => map (fun _ => (0%Qc, 0%Qc)) (upto 0 nTime)) (upto 0 (zlen freq))]).
Proof.
  intros src light E ants nTime data freq az alt HR HE HF HD HT HB.
  destruct (C88_beam_proof src light E ants nTime data freq az alt HR HE HF HD HT) as (tmin & _ & H). rewrite H. clear H.
  assert (G : forall p, existsb (fun a => (b_pol a =? p) && (b_status a =? 33)) ants = false).
  { intro p. clear - HB. induction ants as [|a l IH]; [reflexivity|]. cbn [existsb]. assert (N := HB a (or_introl eq_refl)). apply Z.eqb_neq in N. rewrite N, andb_false_r. apply IH. intros b Hb. apply HB. right. exact Hb. }
  rewrite (G 0). cbn [map]. do 3 f_equal. unfold beam_of. apply map_ext. intro k. cbv zeta. apply map_ext. intro t.
  assert (N : filter (fun ax : bant * list (list complex) => (b_pol (fst ax) =? 1) && (b_status (fst ax) =? 33)) (combine ants data) = []).
  { clear - HB. revert data. induction ants as [|a l IH]; intro data; [reflexivity|]. destruct data as [|d data]; [reflexivity|]. cbn [combine filter fst].
    assert (N := HB a (or_introl eq_refl)). apply Z.eqb_neq in N. rewrite N, andb_false_r. apply IH. intros b Hb. apply HB. right. exact Hb. }
  match goal with |- context [filter ?g ?l] => assert (N2 : filter g l = []) by exact N; rewrite N2 end. reflexivity.
Qed.
Lemma C88_no_good_example_proof : forall a, In a [ba 1 0 32 0 0 0 4; ba 2 1 11 0 50 0 4] -> b_status a <> 33.
Proof. intros a H. cbn in H. destruct H as [<-|[<-|[]]]; cbn; lia. Qed.
(** C88: circularize() keeps the power, can be undone, and gives a Stokes V of R less L with the sign of the convention asked for (all apart from the factor of two that the
    division by the root of two takes away). *)
Lemma C88_circular_proof : forall (iau : bool) x y l r, circularize iau x y = (l, r) ->
  (power l + power r = num 2 * (power x + power y))%Qc /\ plus l r = c_times (num 2, 0%Qc) x /\
  (power r - power l = (if iau then 1 else - (1)) * (num 4 * snd (times_conj y x)))%Qc.
Proof.
  intros iau x y l r H. pose proof (circular_power iau x y) as A. pose proof (circular_back iau x y) as B. pose proof (circular_v iau x y) as D. rewrite H in A, B, D. auto.
Qed.
Lemma C88_circular_example_proof : circularize true (q 1, q 0) (q 0, q 1) = ((q 0, q 0), (q 2, q 0)).
Proof. unfold circularize, cadd, csub. cbv zeta. apply f_equal2; apply pair_eq; apply Qc_is_canon; vm_compute; reflexivity. Qed.
(** C88 refuted: the Stokes V of the default (IAU) convention, R less L, has the opposite sign of the Stokes V of the spectrometer, for which V is that of X Y*. *)
Lemma C88_stokes_v_refuted_proof : forall x y l r, circularize true x y = (l, r) -> (power r - power l = - (num 2 * stokes 3 x y))%Qc.
Proof.
  intros [a b] [c d] l r H. injection H as <- <-. unfold stokes. cbn. change (num 2) with (1 + 1)%Qc. ring.
Qed.
