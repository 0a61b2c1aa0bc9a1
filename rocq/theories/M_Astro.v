(** Model of the angle, calendar and time-scale helpers of lsl/astro.py.  Floats are exact
    rationals unless the name ends in _b64. *)
From Coq Require Import ZArith QArith Qround Bool.
From Verif Require Export M_Py M_Num S_Cal M_Cal M_Time.
Open Scope Z_scope.

(** x % m for floats, m > 0 *)
Definition qmod (x m : Q) : Q := (x - m * inject_Z (Qfloor (x / m)))%Q.
Definition qlt_bool (a b : Q) : bool := negb (Qle_bool b a).

(** _float_to_sexa (astro.py 1765-1775): sgn < 0, d, m, s *)
Definition float_to_sexa (value : Q) : bool * Z * Z * Q :=
  let neg := qlt_bool value 0 in
  let v := if neg then (value * - (1))%Q else value in
  (neg, py_int v, py_int (v * 60)%Q mod 60, qmod (v * 3600) 60).
(** The same in binary64 for a value >= 0; Python's % on floats is exact here. *)
Definition float_to_sexa_b64 (v : SpecFloat.spec_float) : Z * Z * Q :=
  (py_int (b64_q v), py_int (b64_q (b64_mul v (b64z 60))) mod 60, qmod (b64_q (b64_mul v (b64z 3600))) 60).

(** dms and hms objects (astro.py 56-98, 180-214) *)
Record dms := mkDms { dms_neg : bool; dms_d : Z; dms_m : Z; dms_s : Q }.
Record hms := mkHms { hms_h : Z; hms_m : Z; hms_s : Q }.
(** hms.__init__ (astro.py 192-213) *)
Definition new_hms (h m : Z) (s : Q) : res hms :=
  if (h <? 0) || (23 <? h) then Raise ValueError
  else if (m <? 0) || (59 <? m) then Raise ValueError
  else if qlt_bool s 0 || Qle_bool 60 s then Raise ValueError
  else Ok (mkHms h m s).

(** deg_to_dms (astro.py 1778-1796): attributes are assigned, not checked *)
Definition deg_to_dms (deg : Q) : dms :=
  let '(neg, d, m, s) := float_to_sexa deg in mkDms neg d m s.
(** dms_to_deg (astro.py 1750-1762) *)
Definition dms_to_deg (x : dms) : Q :=
  let deg := (inject_Z (dms_d x) + inject_Z (dms_m x) / 60 + dms_s x / 3600)%Q in
  if dms_neg x then (deg * - (1))%Q else deg.
(** deg_to_hms (astro.py 1839-1849) *)
Definition deg_to_hms (deg : Q) : res hms :=
  let '(_, h, m, s) := float_to_sexa (deg / 15)%Q in new_hms h m s.
(** hms_to_deg (astro.py 1812-1823), hms_to_sec (3146-3155) *)
Definition hms_to_deg (x : hms) : Q := ((inject_Z (hms_h x) + inject_Z (hms_m x) / 60 + hms_s x / 3600) * 15)%Q.
Definition hms_to_sec (x : hms) : Q := (inject_Z (hms_h x) * 3600 + inject_Z (hms_m x) * 60 + hms_s x)%Q.
(** add_secs_hms (astro.py 1865-1877) *)
Definition add_secs_hms (x : hms) (seconds : Q) : res hms := deg_to_hms (hms_to_deg x + seconds / 3600 * 15)%Q.
(** add_hms (astro.py 1880-1899) and hms.__iadd__ (215-220): the new hours go to an attribute
    "degrees" that nothing reads *)
Definition add_hms (source dest : hms) : res hms :=
  bind (deg_to_hms (hms_to_deg source + hms_to_deg dest)%Q) (fun x => Ok (mkHms (hms_h dest) (hms_m x) (hms_s x))).

(** hrz_to_nswe (astro.py 1902-1919), letters as 0 = N, 1 = E, 2 = S, 3 = W *)
Definition hrz_to_nswe (az : Q) : Z :=
  let az := qmod az 360 in
  if qlt_bool az 45 || Qle_bool 315 az then 0
  else if Qle_bool 45 az && qlt_bool az 135 then 1
  else if Qle_bool 135 az && qlt_bool az 225 then 2 else 3.
(** range_degrees (astro.py 1922-1931) *)
Definition range_degrees (deg : Q) : Q := qmod deg 360.
(** range_hours (astro.py 2895-2908) *)
Definition range_hours (h : Q) : Q :=
  if Qle_bool 0 h && qlt_bool h 24 then h
  else
    let temp := py_int (h / 24)%Q in
    let temp := if qlt_bool h 0 then temp - 1 else temp in
    (h - inject_Z (temp * 24))%Q.

(** get_julian_day (astro.py 1938-1951): astropy's Julian day of a UTC calendar
    time, to the microsecond below; leap-second days are not modelled *)
Definition get_julian_day (y mo d h mi : Z) (s : Q) : Q :=
  let si := py_int s in
  let us := py_int ((s - inject_Z si) * 1000000)%Q in
  (inject_Z (date_to_mjd y mo d) + (4800001 # 2) + (inject_Z (h * 3600 + mi * 60 + si) + inject_Z us / 1000000) / 86400)%Q.
(** get_day_of_week (astro.py 1989-1999) of a Julian day *)
Definition day_of_week (jd : Q) : Z := (py_round jd + 1) mod 7.

(** jd_to_mjd, mjd_to_jd (astro.py 2911-2938), sec_to_jd, jd_to_sec (2867-2888) *)
Definition jd_to_mjd (jd : Q) : res Q := if qlt_bool jd (4800001 # 2) then Raise ValueError else Ok (jd - (4800001 # 2))%Q.
Definition mjd_to_jd (mjd : Q) : res Q := if qlt_bool mjd 0 then Raise ValueError else Ok (mjd + (4800001 # 2))%Q.
Definition sec_to_jd (s : Q) : Q := (s / 86400)%Q.
Definition jd_to_sec (j : Q) : Q := (j * 86400)%Q.

(** leap_secs (astro.py 2945-2961) at UNIX time [u] (JD = 2440587.5 + u/86400).  [acc d] is TAI-UTC at
    the start of day [d]; 8.000082 s is TAI-UTC at 1970-01-01; [e] is the
    floating point error of the difference. *)
Definition leap_secs (acc : Z -> Z) (e u : Q) : res Q :=
  if qlt_bool u (63072000) then Raise ValueError
  else Ok (inject_Z (py_round ((tai acc u - (8000082 # 1000000) - u + e) * 10)) / 10 + 8)%Q.

(** date and zonedate objects (astro.py 305-360, 483-540) *)
Record cdate := mkDate { cd_y : Z; cd_mo : Z; cd_d : Z; cd_h : Z; cd_mi : Z; cd_s : Q }.
(** int(the seconds as printed by str(): three decimals); time.strptime accepts 60 *)
Definition shown_secs (s : Q) : Z := py_round (s * 1000)%Q / 1000.
(** timegm(time.strptime(str(d))) *)
Definition timegm (c : cdate) : Z :=
  (date_to_mjd (cd_y c) (cd_mo c) (cd_d c) - 40587) * 86400 + cd_h c * 3600 + cd_mi c * 60 + shown_secs (cd_s c).
(** time.gmtime(t) with fracSec added *)
Definition from_gmtime (t : Z) (frac : Q) : cdate :=
  let '(y, m, d) := ord2ymd (t / 86400 + 719163) in
  let sec := t mod 86400 in
  mkDate y m d (sec / 3600) (sec / 60 mod 60) (inject_Z (sec mod 60) + frac)%Q.
Definition frac_sec (c : cdate) : Q := (cd_s c - inject_Z (py_int (cd_s c)))%Q.
(** date_to_zonedate (astro.py 1662-1685) and zonedate_to_date (1688-1710), for valid dates
    (strptime rejects others) *)
Definition date_to_zonedate (c : cdate) (gmtoff : Z) : cdate * Z := (from_gmtime (timegm c + gmtoff) (frac_sec c), gmtoff).
Definition zonedate_to_date (z : cdate * Z) : cdate := from_gmtime (timegm (fst z) - snd z) (frac_sec (fst z)).
