(** Model of mjdmpm_to_datetime and datetime_to_mjdmpm (lsl/common/mcs.py 576-631). *)
From Coq Require Import ZArith QArith Qround Bool.
From Verif Require Export M_Py M_Num S_Cal.
Open Scope Z_scope.

(** datetime_to_mjdmpm (mcs.py 594-631), for a UTC datetime *)
Definition date_to_mjd (year month day : Z) : Z :=
  let a := (14 - month) / 12 in
  let y := year + 4800 - a in
  let m := month + (12 * a) - 3 in
  let p := day + (((153 * m) + 2) / 5) + (365 * y) in
  let q := (y / 4) - (y / 100) + (y / 400) - 32045 in
  Qfloor (inject_Z (p + q) - (4800001 # 2))%Q.
Definition datetime_to_mjdmpm (t : datetime) : Z * Z :=
  let millisecond := (inject_Z (dt_us t) / 1000)%Q in
  (date_to_mjd (dt_y t) (dt_m t) (dt_d t),
   Qfloor (inject_Z ((dt_H t * 3600 + dt_M t * 60 + dt_S t) * 1000) + millisecond)%Q).

(** CPython's calendar date of a proleptic Gregorian ordinal (datetime._ord2ymd);
    the language's library, not /repo. *)
Definition dbm (m : Z) : Z :=
  if m <=? 1 then 0 else if m =? 2 then 31 else if m =? 3 then 59 else if m =? 4 then 90 else if m =? 5 then 120
  else if m =? 6 then 151 else if m =? 7 then 181 else if m =? 8 then 212 else if m =? 9 then 243
  else if m =? 10 then 273 else if m =? 11 then 304 else 334.
Definition ord2ymd (n : Z) : Z * Z * Z :=
  let n := n - 1 in
  let n400 := n / 146097 in let n := n mod 146097 in
  let n100 := n / 36524 in let n := n mod 36524 in
  let n4 := n / 1461 in let n := n mod 1461 in
  let n1 := n / 365 in let n := n mod 365 in
  let year := n400 * 400 + 1 + n100 * 100 + n4 * 4 + n1 in
  if (n1 =? 4) || (n100 =? 4) then (year - 1, 12, 31)
  else
    let lp := (n1 =? 3) && (negb (n4 =? 24) || (n100 =? 3)) in
    let month := (n + 50) / 32 in
    let preceding := dbm month + (if (2 <? month) && lp then 1 else 0) in
    if n <? preceding then
      let month := month - 1 in
      let dm := if month =? 2 then 28 else if (month =? 4) || (month =? 6) || (month =? 9) || (month =? 11) then 30 else 31 in
      let preceding := preceding - (dm + (if (month =? 2) && lp then 1 else 0)) in
      (year, month, n - preceding + 1)
    else (year, month, n - preceding + 1).
(** datetime.fromtimestamp(t, tz=utc): rounded to a microsecond, years 1 to 9999. *)
Definition fromtimestamp (unix : Q) : res datetime :=
  let us := py_round (unix * 1000000)%Q in
  let s := us / 1000000 in
  let day := s / 86400 in let sec := s mod 86400 in
  let '(y, m, d) := ord2ymd (day + 719163) in
  if (1 <=? y) && (y <=? 9999) then Ok (mkDT y m d (sec / 3600) (sec / 60 mod 60) (sec mod 60) (us mod 1000000))
  else Raise ValueError.

(** mjdmpm_to_datetime (mcs.py 576-591), tz None.  [e]: the floating point error of the sum. *)
Definition mjdmpm_to_datetime (e : Q) (mjd mpm : Z) : res datetime :=
  fromtimestamp (inject_Z mjd * 86400 + inject_Z mpm / 1000 - 3506716800 + e)%Q.
(** The same sum bit-exactly in binary64; numbers here are integers or quotients. *)
Definition mjdmpm_unix_b64 (mjd mpm : Z) : Q :=
  b64_q (b64_sub (b64_add (b64_mul (b64z mjd) (b64z 86400)) (b64_div (b64z mpm) (b64z 1000))) (b64z 3506716800)).
