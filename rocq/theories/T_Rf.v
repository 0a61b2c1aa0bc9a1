(** Property theorems (generated from P_RfT.v by tools/gen_theorems.py). *)
From Coq Require Import Reals Lra ZArith.
From Verif Require Import M_Py M_Rf S_Rf P_Rf P_RfT.
Open Scope R_scope.

(** C123: a gain in dBi at a frequency is the gain in K/Jy of an antenna whose area is so many decibels above that of an isotropic antenna at this frequency; one in dBd is 2.14844 dB more. *)
Theorem C123_gain : forall (d f : R), f <> 0 -> exists r, decibels r d /\ dBi_to_gain d (Num f) = gain_of_area (r * isotropic f) /\ dBd_to_gain (d - 2.14844) (Num f) = gain_of_area (r * isotropic f).
Proof. exact C123_gain_proof. Qed.
Print Assumptions C123_gain.

Example C123_gain_example : decibels 10 10 /\ decibels 1 0.
Proof. exact C123_gain_example_proof. Qed.

(** C123: the conversions undo each other, in both directions. *)
Theorem C123_round_trip : forall (d f : R), f <> 0 -> gain_to_dBi (Num (dBi_to_gain d (Num f))) (Num f) = Ok d /\ gain_to_dBd (Num (dBd_to_gain d (Num f))) (Num f) = Ok d /\ dBi_to_dBd (dBd_to_dBi d) = d /\ dBd_to_dBi (dBi_to_dBd d) = d.
Proof. exact C123_round_trip_proof. Qed.
Print Assumptions C123_round_trip.

Theorem C123_back : forall (g f d : R), (gain_to_dBi (Num g) (Num f) = Ok d -> dBi_to_gain d (Num f) = g) /\ (gain_to_dBd (Num g) (Num f) = Ok d -> dBd_to_gain d (Num f) = g).
Proof. exact C123_back_proof. Qed.
Print Assumptions C123_back.

Example C123_back_example : exists g, gain_to_dBi (Num g) (Num 74000000) = Ok 6.
Proof. exact C123_back_example_proof. Qed.

(** C123: a gain has a number of decibels exactly if it is positive and the frequency is not zero; otherwise there is a ValueError. *)
Theorem C123_domain : forall (g f : R), ((exists d, gain_to_dBi (Num g) (Num f) = Ok d) <-> 0 < g /\ f <> 0) /\ ((exists d, gain_to_dBi (Num g) (Num f) = Ok d) \/ gain_to_dBi (Num g) (Num f) = Raise ValueError).
Proof. exact C123_domain_proof. Qed.
Print Assumptions C123_domain.

Example C123_domain_example : gain_to_dBi (Num 0) (Num 1) = Raise ValueError.
Proof. exact C123_domain_example_proof. Qed.

(** C123: a quantity with a unit is the same as its number in the units of the documentation: Hz, K/Jy, Jy, m^2. *)
Theorem C123_units : forall (d x u y v : R),
  dBi_to_gain d (Qty x u) = dBi_to_gain d (Num (x * u)) /\
  gain_to_dBi (Qty y v) (Qty x u) = gain_to_dBi (Num (y * v * jansky)) (Num (x * u)) /\
  calculate_effective_area (Qty y v) = calculate_effective_area (Num (y * v * jansky)).
Proof. exact C123_units_proof. Qed.
Print Assumptions C123_units.

(** C124: the system equivalent flux density is the flux density, in Jy, at which a source doubles the system temperature; it takes the gain, or the area and the efficiency, and with neither there is a RuntimeError. *)
Theorem C124_sefd : forall (T g a e : R) (area : option arg) (eff : option R), g <> 0 -> e * a <> 0 ->
  (exists s, calculate_sefd (Num T) (Some (Num g)) area eff = Ok s /\ s * g = T) /\
  (exists s, calculate_sefd (Num T) None (Some (Num a)) (Some e) = Ok s /\ s * gain_of_area (e * a) = T) /\
  (calculate_sefd (Num T) None area eff = Raise RuntimeError <-> area = None \/ eff = None).
Proof. exact C124_sefd_proof. Qed.
Print Assumptions C124_sefd.

Example C124_sefd_example : calculate_sefd (Num 100) (Some (Num 2)) None None = Ok (100 * 1 / (2 * K_per_Jy) / Jy) /\ calculate_sefd (Num 100) None (Some (Num 25)) None = Raise RuntimeError.
Proof. exact C124_sefd_example_proof. Qed.

(** C124: the effective area is the area with this gain, and the only one; the SEFD is the same from the gain and from that area with efficiency one. *)
Theorem C124_area : forall (g m2 T : R), (calculate_effective_area (Num g) = m2 <-> gain_of_area m2 = g) /\
  calculate_sefd (Num T) None (Some (Num (calculate_effective_area (Num g)))) (Some 1) = calculate_sefd (Num T) (Some (Num g)) None None.
Proof. exact C124_area_proof. Qed.
Print Assumptions C124_area.

(** C124: a flux density in dBm is the received power over a milliwatt, in decibels, and the conversions undo each other. *)
Theorem C124_power : forall (s b g p : R), Jy_to_dBm (Num s) (Num b) (Num g) = Ok p -> exists m2, gain_of_area m2 = g /\ decibels (received s b m2 / 0.001) p.
Proof. exact C124_power_proof. Qed.
Print Assumptions C124_power.

Theorem C124_power_round_trip : forall (s b g p : R), (b <> 0 -> g <> 0 -> Jy_to_dBm (Num (dBm_to_Jy p (Num b) (Num g))) (Num b) (Num g) = Ok p) /\ (Jy_to_dBm (Num s) (Num b) (Num g) = Ok p -> dBm_to_Jy p (Num b) (Num g) = s).
Proof. exact C124_power_round_trip_proof. Qed.
Print Assumptions C124_power_round_trip.

Example C124_power_example : exists s, Jy_to_dBm (Num s) (Num 1000000) (Num 2) = Ok (-90).
Proof. exact C124_power_example_proof. Qed.

(** C124: a flux density has a number of dBm exactly if the received power is positive. *)
Theorem C124_domain : forall (s b g : R), (exists p, Jy_to_dBm (Num s) (Num b) (Num g) = Ok p) /\ 0 < s * b * g \/ Jy_to_dBm (Num s) (Num b) (Num g) = Raise ValueError /\ s * b * g <= 0.
Proof. exact C124_domain_proof. Qed.
Print Assumptions C124_domain.

Example C124_domain_example : 0 < 3 * 2 * 1.
Proof. exact C124_domain_example_proof. Qed.
