(** Theorems about lsl/misc/rfutils.py. *)
From Coq Require Import Reals Lra ZArith.
From Verif Require Import M_Py M_Rf S_Rf P_Rf.
Open Scope R_scope.

(** C123: a gain in dBi at a frequency is the gain in K/Jy of an antenna whose area is so many decibels above that of an isotropic antenna at this frequency; one in dBd is 2.14844 dB more. *)
Lemma C123_gain_proof : forall (d f : R), f <> 0 -> exists r, decibels r d /\ dBi_to_gain d (Num f) = gain_of_area (r * isotropic f) /\ dBd_to_gain (d - 2.14844) (Num f) = gain_of_area (r * isotropic f).
Proof.
  intros d f F. exists (pow10 (d / 10)). split; [apply decibels_pow10|]. split; [apply gain_value; exact F|]. rewrite <- gain_value by exact F. unfold dBd_to_gain, dBd_to_dBi. f_equal. lra.
Qed.
Lemma C123_gain_example_proof : decibels 10 10 /\ decibels 1 0.
Proof.
  split; (split; [lra|]).
  - replace (10 / 10 * ln 10) with (ln 10) by field. apply exp_ln. lra.
  - replace (0 / 10 * ln 10) with 0 by field. apply exp_0.
Qed.
(** C123: the conversions undo each other, in both directions. *)
Lemma C123_round_trip_proof : forall (d f : R), f <> 0 -> gain_to_dBi (Num (dBi_to_gain d (Num f))) (Num f) = Ok d /\ gain_to_dBd (Num (dBd_to_gain d (Num f))) (Num f) = Ok d /\ dBi_to_dBd (dBd_to_dBi d) = d /\ dBd_to_dBi (dBi_to_dBd d) = d.
Proof.
  intros d f F. split; [apply round_dBi; exact F|]. split.
  - unfold gain_to_dBd, dBd_to_gain. rewrite round_dBi by exact F. cbn [bind]. f_equal. unfold dBi_to_dBd, dBd_to_dBi. ring.
  - unfold dBi_to_dBd, dBd_to_dBi. split; ring.
Qed.
Lemma C123_back_proof : forall (g f d : R), (gain_to_dBi (Num g) (Num f) = Ok d -> dBi_to_gain d (Num f) = g) /\ (gain_to_dBd (Num g) (Num f) = Ok d -> dBd_to_gain d (Num f) = g).
Proof.
  intros g f d. split; [apply round_gain|]. unfold gain_to_dBd. destruct (gain_to_dBi (Num g) (Num f)) as [x|e] eqn:E; [|discriminate]. cbn [bind]. intro H. injection H as <-. unfold dBd_to_gain. replace (dBd_to_dBi (dBi_to_dBd x)) with x by (unfold dBi_to_dBd, dBd_to_dBi; ring). apply round_gain. exact E.
Qed.
Lemma C123_back_example_proof : exists g, gain_to_dBi (Num g) (Num 74000000) = Ok 6.
Proof.
  eexists. apply round_dBi. lra.
Qed.
(** C123: a gain has a number of decibels exactly if it is positive and the frequency is not zero; otherwise there is a ValueError. *)
Lemma C123_domain_proof : forall (g f : R), ((exists d, gain_to_dBi (Num g) (Num f) = Ok d) <-> 0 < g /\ f <> 0) /\ ((exists d, gain_to_dBi (Num g) (Num f) = Ok d) \/ gain_to_dBi (Num g) (Num f) = Raise ValueError).
Proof.
  intros g f. destruct (domain g f) as [(A & B & C)|(A & B)]; split.
  - split; intro; [split; assumption|exact A].
  - left. exact A.
  - rewrite A. split; [intros [d H]; discriminate|intros [G F]; destruct B; [lra|contradiction]].
  - right. exact A.
Qed.
Lemma C123_domain_example_proof : gain_to_dBi (Num 0) (Num 1) = Raise ValueError.
Proof.
  destruct (domain 0 1) as [(_ & A & _)|[A _]]; [lra|exact A].
Qed.
(** C123: a quantity with a unit is the same as its number in the units of the documentation: Hz, K/Jy, Jy, m^2. *)
Lemma C123_units_proof : forall (d x u y v : R),
  dBi_to_gain d (Qty x u) = dBi_to_gain d (Num (x * u)) /\
  gain_to_dBi (Qty y v) (Qty x u) = gain_to_dBi (Num (y * v * jansky)) (Num (x * u)) /\
  calculate_effective_area (Qty y v) = calculate_effective_area (Num (y * v * jansky)).
Proof.
  intros d x u y v. assert (E : y * v * jansky * K_per_Jy = y * v) by (rewrite Rmult_assoc, (Rmult_comm jansky), <- Jy_eq, K_Jy; ring). split; [|split].
  - unfold dBi_to_gain, make_quantity. rewrite Rmult_1_r. reflexivity.
  - unfold gain_to_dBi. cbn [make_quantity]. rewrite E, Rmult_1_r. reflexivity.
  - unfold calculate_effective_area. cbn [make_quantity]. rewrite E. reflexivity.
Qed.

(** C124: the system equivalent flux density is the flux density, in Jy, at which a source doubles the system temperature; it takes the gain, or the area and the efficiency, and with neither there is a RuntimeError. *)
Lemma C124_sefd_proof : forall (T g a e : R) (area : option arg) (eff : option R), g <> 0 -> e * a <> 0 ->
  (exists s, calculate_sefd (Num T) (Some (Num g)) area eff = Ok s /\ s * g = T) /\
  (exists s, calculate_sefd (Num T) None (Some (Num a)) (Some e) = Ok s /\ s * gain_of_area (e * a) = T) /\
  (calculate_sefd (Num T) None area eff = Raise RuntimeError <-> area = None \/ eff = None).
Proof.
  intros T g a e area eff G EA. pose proof kB_pos as KP. pose proof Jy_pos as JP. split; [|split].
  - eexists. split; [reflexivity|]. cbn [make_quantity]. unfold K_per_Jy. field. lra.
  - eexists. split; [reflexivity|]. cbn [make_quantity]. unfold gain_of_area. rewrite <- kB_eq, <- Jy_eq. assert (e <> 0) by (intros ->; apply EA; ring). assert (a <> 0) by (intros ->; apply EA; ring). field. repeat split; try assumption; lra.
  - unfold calculate_sefd. destruct area as [x|], eff as [y|]; cbn [bind]; split; intro H; auto; try discriminate; destruct H; discriminate.
Qed.
Lemma C124_sefd_example_proof : calculate_sefd (Num 100) (Some (Num 2)) None None = Ok (100 * 1 / (2 * K_per_Jy) / Jy) /\ calculate_sefd (Num 100) None (Some (Num 25)) None = Raise RuntimeError.
Proof. split; reflexivity. Qed.
(** C124: the effective area is the area with this gain, and the only one; the SEFD is the same from the gain and from that area with efficiency one. *)
Lemma C124_area_proof : forall (g m2 T : R), (calculate_effective_area (Num g) = m2 <-> gain_of_area m2 = g) /\
  calculate_sefd (Num T) None (Some (Num (calculate_effective_area (Num g)))) (Some 1) = calculate_sefd (Num T) (Some (Num g)) None None.
Proof.
  intros g m2 T. split; [apply area_gain|]. unfold calculate_sefd. cbn [make_quantity bind]. unfold calculate_effective_area. cbn [make_quantity]. do 2 f_equal. pose proof kB_pos. replace (1 * (2 * kB * (g * K_per_Jy) * 1) / 2 / kB) with (g * K_per_Jy); [reflexivity|field; lra].
Qed.
(** C124: a flux density in dBm is the received power over a milliwatt, in decibels, and the conversions undo each other. *)
Lemma C124_power_proof : forall (s b g p : R), Jy_to_dBm (Num s) (Num b) (Num g) = Ok p -> exists m2, gain_of_area m2 = g /\ decibels (received s b m2 / 0.001) p.
Proof.
  intros s b g p H. exists (calculate_effective_area (Num g)). split; [apply area_gain; reflexivity|]. rewrite power_dBm in H. destruct (log10 _) as [y|e] eqn:E; [|discriminate]. cbn [bind] in H. injection H as <-. apply pow_log in E. replace (received s b (calculate_effective_area (Num g)) / 0.001) with (received s b (calculate_effective_area (Num g)) * 1000) by (generalize (received s b (calculate_effective_area (Num g))); intro; lra). rewrite <- E. replace y with (10 * y / 10) at 1 by field. apply decibels_pow10.
Qed.
Lemma C124_power_round_trip_proof : forall (s b g p : R), (b <> 0 -> g <> 0 -> Jy_to_dBm (Num (dBm_to_Jy p (Num b) (Num g))) (Num b) (Num g) = Ok p) /\ (Jy_to_dBm (Num s) (Num b) (Num g) = Ok p -> dBm_to_Jy p (Num b) (Num g) = s).
Proof.
  intros s b g p. split; [apply round_dBm|apply round_Jy].
Qed.
Lemma C124_power_example_proof : exists s, Jy_to_dBm (Num s) (Num 1000000) (Num 2) = Ok (-90).
Proof.
  eexists. apply round_dBm; lra.
Qed.
(** C124: a flux density has a number of dBm exactly if the received power is positive. *)
Lemma C124_domain_proof : forall (s b g : R), (exists p, Jy_to_dBm (Num s) (Num b) (Num g) = Ok p) /\ 0 < s * b * g \/ Jy_to_dBm (Num s) (Num b) (Num g) = Raise ValueError /\ s * b * g <= 0.
Proof.
  intros s b g. rewrite power_dBm. unfold received. rewrite area_value, <- Jy_eq. pose proof kB_pos as KP. replace (s * Jy * b * (2 * kB * (g * K_per_Jy)) * 1000) with (s * b * g * (2000 * kB * (K_per_Jy * Jy))) by ring. rewrite K_Jy.
  assert (Q : 0 < 2000 * kB * 1) by lra. destruct (Rlt_dec 0 (s * b * g)) as [P|P].
  - left. split; [|exact P]. rewrite log10_pos by (apply Rmult_lt_0_compat; assumption). eexists. reflexivity.
  - right. split; [|lra]. rewrite log10_neg; [reflexivity|]. replace 0 with (0 * (2000 * kB * 1)) by ring. apply Rmult_le_compat_r; lra.
Qed.
Lemma C124_domain_example_proof : 0 < 3 * 2 * 1.
Proof. lra. Qed.
