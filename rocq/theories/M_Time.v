(** Model of FrameTimestamp (lsl/reader/base.py 329-600) over exact rationals.

    astropy's UTC time is modelled as the number of seconds since 1970 in days of 86400
    equal parts each (its quasi-JD); on a day with a leap second those parts are longer
    than a second, and differences of times are elapsed (TAI) seconds. *)
From Coq Require Import ZArith QArith Qround Bool.
From Verif Require Export M_Num.
Open Scope Z_scope.

(** ndp.fS (common/ndp.py 31) *)
Definition fS : Z := 196000000.

(** FrameTimestamp.__init__, integer seconds (base.py 341-356): the pair handed to astropy. *)
Definition mk_timestamp (si : Z) (sf : Q) : Z * Q :=
  if Qle_bool 1 sf then let i := py_int sf in (si + i, (sf - inject_Z i)%Q)
  else if negb (Qle_bool 0 sf) then let i := py_int sf - 1 in (si + i, (sf - inject_Z i)%Q)
  else (si, sf).
(** ... float seconds (base.py 342-344) *)
Definition mk_timestamp_f (si sf : Q) : Z * Q :=
  mk_timestamp (py_int si) (sf + (si - inject_Z (py_int si)))%Q.

(** from_dp_timetag (base.py 368-377); the division in floating point is exact up to an error
    carried by the callers' hypotheses *)
Definition from_dp_timetag (value offset : Z) : Z * Q :=
  let tt := value - offset in
  let s := tt / fS in
  mk_timestamp s (inject_Z (tt - s * fS) / inject_Z fS)%Q.
(** the instant a pair stands for, seconds since 1970 *)
Definition unix (p : Z * Q) : Q := (inject_Z (fst p) + snd p)%Q.

Section Utc.
(** [acc d]: leap seconds inserted before day [d] (days since 1970). *)
Context (acc : Z -> Z).
Definition leap (d : Z) : Z := acc (d + 1) - acc d.
Definition day_of (u : Q) : Z := Qfloor (u / 86400).
(** TAI seconds (up to a constant) of a UTC time (ERFA utctai) *)
Definition tai (u : Q) : Q :=
  (u + inject_Z (acc (day_of u)) + inject_Z (leap (day_of u)) * (u / 86400 - inject_Z (day_of u)))%Q.

(** dp_timetag (base.py 568-579).  [e_unix]: floating point error of time.unix;
    [e_frac]: error, in ticks, of sec_frac.sec*fS. *)
Definition dp_timetag (e_unix e_frac : Q) (u : Q) : Z :=
  let sec := py_int (u + e_unix)%Q in
  let sec_frac := (tai u - tai (inject_Z sec))%Q in
  sec * fS + py_int (py_round2 (sec_frac * inject_Z fS + e_frac)).

(** from_mjd_mpm (base.py 379-387): the TAI instant.  40587 is the MJD of 1970-01-01. *)
Definition from_mjd_mpm (mjd mpm : Z) : Q :=
  (tai (inject_Z ((mjd - 40587) * 86400 + mpm / 1000)) + inject_Z (mpm mod 1000) / 1000)%Q.

(** __sub__ of two timestamps (base.py 452-455) and __lt__ (base.py 484-486) *)
Definition ts_sub (u v : Q) : Q := (tai u - tai v)%Q.
Definition ts_lt (u v : Q) : bool := negb (Qle_bool (tai v) (tai u)).
End Utc.

(** pulsar_mjd (base.py 522-557).  The four while loops add or subtract whole days; each
    turns at most twice, the fuel is 3. *)
Fixpoint loop_ge1 (n : nat) (m : Z) (f : Q) : Z * Q :=
  match n with
  | O => (m, f)
  | S k => if Qle_bool 1 f then loop_ge1 k (m + 1) (f - 1)%Q else (m, f)
  end.
Fixpoint loop_lt0 (n : nat) (m : Z) (f : Q) : Z * Q :=
  match n with
  | O => (m, f)
  | S k => if negb (Qle_bool 0 f) then loop_lt0 k (m - 1) (f + 1)%Q else (m, f)
  end.
Definition pulsar_mjd (jd1 jd2 : Q) : Z * Z * Q :=
  let j1i := py_int jd1 in let j1f := (jd1 - inject_Z j1i)%Q in
  let j2i := py_int jd2 in let j2f := (jd2 - inject_Z j2i)%Q in
  let mjdq := (inject_Z (j1i + j2i) - (4800001 # 2))%Q in
  let f1 := (j1f + (mjdq - inject_Z (py_int mjdq)))%Q in
  let '(m, f1) := loop_ge1 3 (py_int mjdq) f1 in
  let '(m, f2) := loop_ge1 3 m j2f in
  let '(m, f1) := loop_lt0 3 m f1 in
  let '(m, f2) := loop_lt0 3 m f2 in
  let d1 := (f1 * 86400)%Q in let d2 := (f2 * 86400)%Q in
  let day_sec := py_int d1 + py_int d2 in
  let '(m, day_sec) := if 86400 <? day_sec then (m + 1, day_sec - 86400) else (m, day_sec) in
  (m, day_sec, ((d1 - inject_Z (py_int d1)) + (d2 - inject_Z (py_int d2)))%Q).
