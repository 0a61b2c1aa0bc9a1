(** Specification vocabulary for C135, C136: the spectral kurtosis estimator of Nita & Gary (2010). *)
From Coq Require Import List ZArith Bool QArith.
From Verif Require Import M_Py.
Import ListNotations.
Open Scope Q_scope.

(** The sum of f over the values. *)
Fixpoint total (f : Q -> Q) (l : list Q) : Q := match l with [] => 0 | x :: r => f x + total f r end.
(** [k] is the estimator (M N + 1)/(M - 1) (M S2/S1^2 - 1) of the powers [l], each the mean of [n] spectra. *)
Definition kurtosis_is (n : Z) (l : list Q) (k : Q) : Prop :=
  let M := inject_Z (Z.of_nat (length l)) in let S1 := total (fun x => x) l in let S2 := total (fun x => x * x) l in
  k == (M * inject_Z n + 1) / (M - 1) * (M * S2 / (S1 * S1) - 1).
(** The same outcome, with equal numbers. *)
Definition same (a b : res (option Q)) : Prop :=
  match a, b with
  | Ok (Some p), Ok (Some q) => p == q
  | Ok None, Ok None => True
  | Raise e, Raise f => e = f
  | _, _ => False
  end.
Definition rectangle (r c : nat) (x : list (list Q)) : Prop := length x = r /\ Forall (fun l => length l = c) x.
