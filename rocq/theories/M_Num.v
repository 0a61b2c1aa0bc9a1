(** Python numbers: exact rationals for Python floats whose rounding error is
    carried separately, and bit-exact binary64 for the places where rounding matters. *)
From Coq Require Import ZArith QArith Qround Bool Lqa Lia.
From Coq Require Import Floats.SpecFloat.
Open Scope Z_scope.

(** int(x): towards zero *)
Definition py_int (x : Q) : Z := if Qle_bool 0 x then Qfloor x else - Qfloor (- x).
(** round(x): to nearest, ties to even *)
Definition py_round (x : Q) : Z :=
  let f := Qfloor x in let d := (x - inject_Z f)%Q in
  if Qle_bool (1 # 2) d then
    if Qle_bool d (1 # 2) then (if Z.even f then f else f + 1) else f + 1
  else f.
(** round(x, 2), as an exact decimal *)
Definition py_round2 (x : Q) : Q := (inject_Z (py_round (x * 100)) / 100)%Q.

(** binary64 *)
Definition b64_of (m e : Z) : spec_float := binary_normalize 53 1024 m e false.
Definition b64z (m : Z) : spec_float := b64_of m 0.
Definition b64_add := SFadd 53 1024.
Definition b64_sub := SFsub 53 1024.
Definition b64_mul := SFmul 53 1024.
Definition b64_div := SFdiv 53 1024.
(** the number a finite binary64 stands for *)
Definition b64_q (x : spec_float) : Q :=
  match x with
  | S754_finite s m e => let v := if s then Z.neg m else Z.pos m in
                         if 0 <=? e then inject_Z (v * 2 ^ e) else (v # (Z.to_pos (2 ^ (- e))))
  | _ => 0
  end.
