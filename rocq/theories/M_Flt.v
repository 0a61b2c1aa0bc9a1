(** Double precision as a function on rationals: 53 significant bits, round to nearest, ties to even.  This is IEEE 754
    binary64, the arithmetic of Python's float (not /repo).  Simplification: the exponent is not limited, so there is
    no overflow and there are no subnormal numbers. *)
From Coq Require Import ZArith QArith Qround Qpower Bool.
From Verif Require Import M_Bar.
Open Scope Q_scope.

(** The exponent [e] with 2^e <= |x| < 2^(e+1). *)
Definition qlog2 (x : Q) : Z :=
  let n := Z.abs (Qnum x) in
  let d := Zpos (Qden x) in
  let e := (Z.log2 n - Z.log2 d)%Z in
  if (if 0 <=? e then n <? d * 2 ^ e else n * 2 ^ (- e) <? d)%Z then (e - 1)%Z else e.
Definition fl (x : Q) : Q :=
  if (Qnum x =? 0)%Z then 0
  else let k := (52 - qlog2 x)%Z in
       Qred (inject_Z (half_even (x * 2 ^ k)) * 2 ^ (- k)).
