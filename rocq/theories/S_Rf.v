(** What gains, decibels and flux densities mean. *)
From Coq Require Import Reals.
Open Scope R_scope.

(** a ratio in decibels *)
Definition decibels (ratio d : R) : Prop := 0 < ratio /\ exp (d / 10 * ln 10) = ratio.
(** the collecting area of an isotropic antenna: the square of the wavelength over 4 pi *)
Definition wavelength (hz : R) : R := 299792458 / hz.
Definition isotropic (hz : R) : R := wavelength hz * wavelength hz / (4 * PI).
(** Boltzmann's constant, 1.380649e-23 J/K, and one jansky, 1e-26 W/m^2/Hz *)
Definition boltzmann : R := 1380649 / 100000 / 1000000 / 1000000 / 1000000 / 1000000.
Definition jansky : R := / 100000000 / 1000000 / 1000000 / 1000000.
(** an antenna of so many square meters has this gain in K/Jy: the power a source of one jansky in both polarizations delivers, in kelvins *)
Definition gain_of_area (m2 : R) : R := m2 * jansky / (2 * boltzmann).
(** the power in watts a source delivers in a bandwidth to an area *)
Definition received (jy hz m2 : R) : R := jy * jansky * hz * m2.
