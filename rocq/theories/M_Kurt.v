(** Model of lsl/statistics/kurtosis.py: the estimator, its expected moments and the handling of error levels in get_limits.
    Simplification: exact rational numbers; numpy's nan (0/0) is None. *)
From Coq Require Import List ZArith Bool QArith.
From Verif Require Import M_Py.
Import ListNotations.
Open Scope Z_scope.

(** ndarray.sum() *)
Definition qsum (l : list Q) : Q := fold_right Qplus 0%Q l.
(** spectral_power (163-168) of the values [l] summed over, with M = len(x): k = M*(x**2).sum()/x.sum()**2 - 1, then times
    (M*N+1)/(M-1), a division of integers. *)
Definition estimate (m n : Z) (l : list Q) : res (option Q) :=
  if m =? 1 then Raise ZeroDivisionError
  else Ok (if Qeq_bool (qsum l) 0 then None
           else Some ((inject_Z m * qsum (map (fun x => x * x) l) / (qsum l * qsum l) - 1) * (inject_Z (m * n + 1) / inject_Z (m - 1)))%Q).
Definition spectral_power (n : Z) (x : list Q) : res (option Q) := estimate (Z.of_nat (length x)) n x.
(** spectral_fft (152-153): complex values by their parts. *)
Definition spectral_fft (x : list (Q * Q)) : res (option Q) := spectral_power 1 (map (fun '(re, im) => re * re + im * im)%Q x).
(** spectral_power of a two-dimensional array, by its rows of [c] values each: M is the number of rows whatever the axis (163). *)
Definition column (x : list (list Q)) (j : nat) : list Q := map (fun r => nth j r 0%Q) x.
Fixpoint all_ok (l : list (res (option Q))) : res (list (option Q)) :=
  match l with [] => Ok [] | a :: r => bind a (fun v => bind (all_ok r) (fun vs => Ok (v :: vs))) end.
Definition spectral_axis0 (n : Z) (c : nat) (x : list (list Q)) : res (list (option Q)) :=
  all_ok (map (fun j => estimate (Z.of_nat (length x)) n (column x j)) (seq 0 c)).
Definition spectral_axis1 (n : Z) (x : list (list Q)) : res (list (option Q)) :=
  all_ok (map (fun r => estimate (Z.of_nat (length x)) n r) x).
Definition spectral_all (n : Z) (x : list (list Q)) : res (option Q) := estimate (Z.of_nat (length x)) n (concat x).
(** var (46), skew (55-57): float divisions, which raise ZeroDivisionError. *)
Definition var (m n : Z) : res Q :=
  let d := (m - 1) * (m * n + 3) * (m * n + 2) in
  if d =? 0 then Raise ZeroDivisionError else Ok (inject_Z (2 * n * (n + 1) * (m * m)) / inject_Z d)%Q.
Definition skew (m n : Z) : res Q :=
  bind (var m n) (fun m2 =>
  let d := (m - 1) * (m * n + 5) * (m * n + 4) in
  if d =? 0 then Raise ZeroDivisionError else Ok (4 * m2 * inject_Z m / inject_Z d * inject_Z ((n + 4) * m * n - 5 * n - 2))%Q).
(** The numpy error settings: as before, or all='raise'. *)
Inductive level := Before | Raising.
(** What the quantile function of the distribution gives (127-136): a number, FloatingPointError, or another exception. *)
Inductive quantile := Value (q : Q) | FloatingPoint | Other (e : exn).
(** get_limits (112-141): its outcome and the error settings afterwards.  [params] is the outcome of _alpha, _beta and _delta once
    var and skew have been computed, [std] the square root of var. *)
Definition limit (v : quantile) (fallback : Q) : res Q := match v with Value q => Ok q | FloatingPoint => Ok fallback | Other e => Raise e end.
Definition get_limits (sigma std : Q) (m n : Z) (params : res unit) (lo hi : quantile) : res (Q * Q) * level :=
  match bind (skew m n) (fun _ => params) with
  | Raise e => (Raise e, Raising)
  | Ok _ =>
      match limit lo (1 - sigma * std)%Q with
      | Raise e => (Raise e, Raising)
      | Ok a => match limit hi (1 + sigma * std)%Q with
                | Raise e => (Raise e, Raising)
                | Ok b => (Ok (a, b), Before)
                end
      end
  end.
