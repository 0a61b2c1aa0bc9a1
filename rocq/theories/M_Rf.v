(** Model of lsl/misc/rfutils.py.  Numbers are real (rounding is left out); a quantity of astropy is its number and the size of its unit in SI units.
    Dimensions are not modelled: all arguments have the right one.  Where numpy divides by zero (infinity) the model has what Coq's division gives; the theorems exclude it. *)
From Coq Require Import Reals ZArith.
From Verif Require Import M_Py.
Open Scope R_scope.

(** an argument: a plain number or a quantity *)
Inductive arg := Num (x : R) | Qty (x unit : R).
(** _make_quantity (23-33), in SI units; a text is taken as the quantity it names *)
Definition make_quantity (v : arg) (default : R) : R := match v with Num x => x * default | Qty x u => x * u end.
(** constants of astropy (10) *)
Definition speedOfLight : R := 299792458.
Definition kB : R := 1380649 / 10 ^ 29.
Definition Jy : R := / 10 ^ 26.
Definition K_per_Jy : R := / Jy.
(** 10**x and math.log10 *)
Definition pow10 (x : R) : R := Rpower 10 x.
Definition log10 (x : R) : res R := if Rlt_dec 0 x then Ok (ln x / ln 10) else Raise ValueError.
(** dBd_to_dBi (36-43), dBi_to_dBd (46-53) *)
Definition dBd_to_dBi (dBd : R) : R := dBd + 214844 / 100000.
Definition dBi_to_dBd (dBi : R) : R := dBi - 214844 / 100000.
(** dBi_to_gain (56-71) *)
Definition dBi_to_gain (dBi : R) (frequency : arg) : R :=
  let f := make_quantity frequency 1 in
  let gain := speedOfLight ^ 2 / (8 * PI * kB * f ^ 2) * pow10 (dBi / 10) in
  gain / K_per_Jy.
(** dBd_to_gain (74-81) *)
Definition dBd_to_gain (dBd : R) (frequency : arg) : R := dBi_to_gain (dBd_to_dBi dBd) frequency.
(** gain_to_dBi (84-98) *)
Definition gain_to_dBi (gain frequency : arg) : res R :=
  let g := make_quantity gain K_per_Jy in
  let f := make_quantity frequency 1 in
  let areaRatio := 8 * PI * kB * f ^ 2 / speedOfLight ^ 2 * g in
  bind (log10 areaRatio) (fun l => Ok (10 * l)).
(** gain_to_dBd (101-108) *)
Definition gain_to_dBd (gain frequency : arg) : res R := bind (gain_to_dBi gain frequency) (fun d => Ok (dBi_to_dBd d)).
(** calculate_sefd (111-142) *)
Definition calculate_sefd (Tsys : arg) (gain area : option arg) (efficiency : option R) : res R :=
  let T := make_quantity Tsys 1 in
  bind (match gain with
        | Some g => Ok (make_quantity g K_per_Jy)
        | None => match area, efficiency with
                  | Some a, Some e => Ok (e * make_quantity a 1 / 2 / kB)
                  | _, _ => Raise RuntimeError
                  end
        end) (fun g => Ok (T / g / Jy)).
(** calculate_effective_area (145-158) *)
Definition calculate_effective_area (gain : arg) : R := 2 * kB * make_quantity gain K_per_Jy.
(** Jy_to_dBm (161-184) *)
Definition Jy_to_dBm (flux bandwidth gain : arg) : res R :=
  let s := make_quantity flux Jy in
  let b := make_quantity bandwidth 1 in
  let area := calculate_effective_area gain in
  let P := s * b * area * 1000 in
  bind (log10 P) (fun l => Ok (10 * l)).
(** dBm_to_Jy (187-211) *)
Definition dBm_to_Jy (dBm : R) (bandwidth gain : arg) : R :=
  let b := make_quantity bandwidth 1 in
  let area := calculate_effective_area gain in
  let P := pow10 (dBm / 10) * (1 / 1000) in
  P / (b * area) / Jy.
