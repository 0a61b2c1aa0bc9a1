(** Property theorems (generated from P_AstroT.v by tools/gen_theorems.py). *)
From Coq Require Import ZArith QArith Qround Qabs Bool Lqa Lia SpecFloat.
From Verif Require Import M_Astro S_Astro P_Num P_Time P_Cal P_Astro P_AstroT.
Open Scope Z_scope.
Ltac Zify.zify_post_hook ::= Z.div_mod_to_equations.

(** C40: for every angle the fields are in range, the sign is that of the angle, and the fields
    mean exactly the angle; converting back gives the angle. *)
Theorem C40_dms : forall deg, let x := deg_to_dms deg in
  (dms_neg x = true <-> (deg < 0)%Q) /\ 0 <= dms_d x /\ 0 <= dms_m x < 60 /\ (0 <= dms_s x < 60)%Q /\
  (sexagesimal (dms_neg x) (dms_d x) (dms_m x) (dms_s x) == deg)%Q /\ (dms_to_deg x == deg)%Q.
Proof. exact C40_dms_proof. Qed.
Print Assumptions C40_dms.

Example C40_dms_example : let x := deg_to_dms (- (4351 # 100))%Q in dms_neg x = true /\ dms_d x = 43 /\ dms_m x = 30 /\ (dms_s x == 36)%Q.
Proof. exact C40_dms_example_proof. Qed.

(** C40: fields in range are recovered, to the last digit of the seconds, from the angle they mean
    (a negative zero is not an angle). *)
Theorem C40_dms_fields : forall n d m s, 0 <= d -> 0 <= m < 60 -> (0 <= s < 60)%Q ->
  (n = true -> ~ (sexagesimal n d m s == 0)%Q) ->
  exists s', deg_to_dms (dms_to_deg (mkDms n d m s)) = mkDms n d m s' /\ (s' == s)%Q.
Proof. exact C40_dms_fields_proof. Qed.
Print Assumptions C40_dms_fields.

Example C40_dms_fields_example : (0 <= 59999 # 1000 < 60)%Q /\ ~ (sexagesimal true 12 59 (59999 # 1000) == 0)%Q /\
  dms_neg (deg_to_dms (dms_to_deg (mkDms true 12 59 (59999 # 1000)))) = true.
Proof. exact C40_dms_fields_example_proof. Qed.

(** C40: angles in [0, 360) convert to hours in range and back; hour angles in range convert to
    degrees and back. *)
Theorem C40_hms_partial :
  (forall deg, (0 <= deg < 360)%Q -> exists x, deg_to_hms deg = Ok x /\
     0 <= hms_h x < 24 /\ 0 <= hms_m x < 60 /\ (0 <= hms_s x < 60)%Q /\
     (sexagesimal false (hms_h x) (hms_m x) (hms_s x) * 15 == deg)%Q /\ (hms_to_deg x == deg)%Q) /\
  (forall h m s, 0 <= h < 24 -> 0 <= m < 60 -> (0 <= s < 60)%Q ->
     exists s', deg_to_hms (hms_to_deg (mkHms h m s)) = Ok (mkHms h m s') /\ (s' == s)%Q).
Proof. exact C40_hms_partial_proof. Qed.
Print Assumptions C40_hms_partial.

Example C40_hms_example : match deg_to_hms (35999 # 100) with Ok x => hms_h x = 23 /\ hms_m x = 59 /\ (hms_s x == 576 # 10)%Q | _ => False end.
Proof. exact C40_hms_example_proof. Qed.

(** C40, finding: outside [0, 360) the angle is not kept.  A negative angle comes back with the
    sign dropped, and from one turn up it is an error. *)
Theorem C40_hms_refuted :
  (forall deg, (- (360) < deg < 0)%Q -> exists x, deg_to_hms deg = Ok x /\ (hms_to_deg x == - deg)%Q) /\
  (forall deg, (360 <= deg)%Q -> deg_to_hms deg = Raise ValueError).
Proof. exact C40_hms_refuted_proof. Qed.
Print Assumptions C40_hms_refuted.

Example C40_hms_refuted_example : (- (360) < - (15) < 0)%Q /\ match deg_to_hms (- (15)) with Ok x => (hms_to_deg x == 15)%Q | _ => False end.
Proof. exact C40_hms_refuted_example_proof. Qed.

(** C40: adding seconds to an hour angle is exact while the result stays within the day, and an
    error from 24 h up. *)
Theorem C40_add_seconds : forall h m s t, 0 <= h < 24 -> 0 <= m < 60 -> (0 <= s < 60)%Q ->
  let total := (inject_Z h * 3600 + inject_Z m * 60 + s + t)%Q in
  ((0 <= total < 86400)%Q -> exists x, add_secs_hms (mkHms h m s) t = Ok x /\ hms_ok x /\ (hms_to_sec x == total)%Q) /\
  ((86400 <= total)%Q -> add_secs_hms (mkHms h m s) t = Raise ValueError).
Proof. exact C40_add_seconds_proof. Qed.
Print Assumptions C40_add_seconds.

Example C40_add_seconds_example : match add_secs_hms (mkHms 1 59 59) 2 with Ok x => hms_h x = 2 /\ hms_m x = 0 /\ (hms_s x == 1)%Q | _ => False end.
Proof. exact C40_add_seconds_example_proof. Qed.

(** C40, finding: adding two hour angles never changes the hours: the sum is wrong
    exactly when it has other hours than the destination. *)
Theorem C40_add_hms_refuted :
  (forall a b x, add_hms a b = Ok x -> hms_h x = hms_h b) /\
  (exists x, add_hms (mkHms 1 0 0) (mkHms 1 0 0) = Ok x /\ (hms_to_sec x == 3600)%Q).
Proof. exact C40_add_hms_refuted_proof. Qed.
Print Assumptions C40_add_hms_refuted.

(** What remains true: minutes and seconds of the sum are right when the hours fit. *)
Theorem C40_add_hms_partial : forall a b, hms_ok a -> hms_ok b -> (hms_to_sec a + hms_to_sec b < 86400)%Q ->
  exists x k, add_hms a b = Ok x /\ hms_ok x /\ (hms_to_sec x == hms_to_sec a + hms_to_sec b + 3600 * inject_Z k)%Q.
Proof. exact C40_add_hms_partial_proof. Qed.
Print Assumptions C40_add_hms_partial.

Example C40_add_hms_example : match add_hms (mkHms 0 40 10) (mkHms 3 30 20) with Ok x => hms_h x = 3 /\ hms_m x = 10 /\ (hms_s x == 30)%Q | _ => False end.
Proof. exact C40_add_hms_example_proof. Qed.

(** C40, finding: in binary64 the fields can be a whole minute wrong.  The float nearest
    4.35 degrees (4 d 21 m 0 s) gives 4 d 21 m and more than 59.9999 s. *)
Theorem C40_float_refuted :
  let v := S754_finite false 4897664594765414 (-50) in
  (Qabs (b64_q v - (435 # 100)) < 1 # 1000000000000000)%Q /\
  let '(d, m, s) := float_to_sexa_b64 v in d = 4 /\ m = 21 /\ (599999 # 10000 < s)%Q.
Proof. exact C40_float_refuted_proof. Qed.
Print Assumptions C40_float_refuted.

(** C41: range_degrees gives the one value in [0, 360) a whole number of turns away. *)
Theorem C41_range_degrees : forall deg, (0 <= range_degrees deg < 360)%Q /\ exists k, (deg == range_degrees deg + 360 * inject_Z k)%Q.
Proof. exact C41_range_degrees_proof. Qed.
Print Assumptions C41_range_degrees.

Example C41_range_degrees_example : (range_degrees (- (3601 # 10)) == 3599 # 10)%Q /\ (range_degrees 360 == 0)%Q.
Proof. exact C41_range_degrees_example_proof. Qed.

(** C41: range_hours gives a value in the documented range 0 to 24, a whole number of days away;
    24 is returned (in place of 0) exactly for negative whole days. *)
Theorem C41_range_hours : forall h, (0 <= range_hours h <= 24)%Q /\ (exists k, (range_hours h == h + 24 * inject_Z k)%Q) /\
  ((range_hours h == 24)%Q <-> exists n, n < 0 /\ (h == 24 * inject_Z n)%Q).
Proof. exact C41_range_hours_proof. Qed.
Print Assumptions C41_range_hours.

Example C41_range_hours_example : (range_hours (- (1 # 2)) == 47 # 2)%Q /\ (range_hours 24 == 0)%Q /\ (range_hours (- (24)) == 24)%Q.
Proof. exact C41_range_hours_example_proof. Qed.

(** C41: the compass letter (0 N, 1 E, 2 S, 3 W) depends only on the direction and is the one whose
    quarter, centred on 90 degrees times the letter, contains it. *)
Theorem C41_compass : forall az, 0 <= hrz_to_nswe az < 4 /\
  exists k, (- (45) <= az - 90 * inject_Z (hrz_to_nswe az) - 360 * inject_Z k < 45)%Q.
Proof. exact C41_compass_proof. Qed.
Print Assumptions C41_compass.

Example C41_compass_example : hrz_to_nswe 314 = 3 /\ hrz_to_nswe 315 = 0 /\ hrz_to_nswe (- (80)) = 3 /\ hrz_to_nswe 500 = 2.
Proof. exact C41_compass_example_proof. Qed.

(** C42: there is one weekday for each date, it is the civil weekday, and it is what is returned
    at every time of that date from one microsecond after midnight.  Missing: midnight itself. *)
Theorem C42_weekday_partial : exists w, is_weekday w /\
  forall y m d h mi s, valid_date y m d -> 0 <= h < 24 -> 0 <= mi < 60 -> (0 <= s < 60)%Q ->
    ~ (h = 0 /\ mi = 0 /\ (s < 1 # 1000000)%Q) ->
    day_of_week (get_julian_day y m d h mi s) = w y m d.
Proof. exact C42_weekday_partial_proof. Qed.
Print Assumptions C42_weekday_partial.

Example C42_weekday_example : day_of_week (get_julian_day 2000 1 1 12 0 0) = 6 /\ day_of_week (get_julian_day 2024 2 29 23 59 (59999 # 1000)) = 4 /\
  day_of_week (get_julian_day 1858 11 17 0 0 (1 # 1000)) = 3.
Proof. exact C42_weekday_example_proof. Qed.

(** C42, finding: at exactly midnight every second day (even modified Julian days) gives the
    weekday of the day before. *)
Theorem C42_midnight_refuted : forall y m d, valid_date y m d ->
  day_of_week (get_julian_day y m d 0 0 0) =
    (day_of_week (get_julian_day y m d 12 0 0) - (if Z.even (date_to_mjd y m d) then 1 else 0)) mod 7.
Proof. exact C42_midnight_refuted_proof. Qed.
Print Assumptions C42_midnight_refuted.

Example C42_midnight_example : valid_date 2000 1 1 /\ day_of_week (get_julian_day 2000 1 1 0 0 0) = 5 /\ day_of_week (get_julian_day 2000 1 2 0 0 0) = 0.
Proof. exact C42_midnight_example_proof. Qed.

(** C50: a calendar date goes to the local date [gmtoff] seconds away and back to itself, when the
    fraction of its seconds is below 0.9995. *)
Theorem C50_zone_partial : forall c off, cdate_ok c -> (frac_sec c < 9995 # 10000)%Q ->
  let z := date_to_zonedate c off in let back := zonedate_to_date z in
  cdate_ok (fst z) /\ snd z = off /\ (instant (fst z) == instant c + inject_Z off)%Q /\
  cd_y back = cd_y c /\ cd_mo back = cd_mo c /\ cd_d back = cd_d c /\ cd_h back = cd_h c /\ cd_mi back = cd_mi c /\ (cd_s back == cd_s c)%Q.
Proof. exact C50_zone_partial_proof. Qed.
Print Assumptions C50_zone_partial.

Example C50_zone_example : let c := mkDate 2000 1 1 3 30 (301 # 10) in cdate_ok c /\ (frac_sec c < 9995 # 10000)%Q /\
  cd_y (fst (date_to_zonedate c (-25200))) = 1999 /\ cd_d (fst (date_to_zonedate c (-25200))) = 31 /\ cd_h (fst (date_to_zonedate c (-25200))) = 20.
Proof. exact C50_zone_example_proof. Qed.

(** C50, finding: with a larger fraction the printed seconds round up, so each conversion is one
    second late. *)
Theorem C50_zone_refuted : forall c off, cdate_ok c -> (9995 # 10000 < frac_sec c)%Q ->
  (instant (fst (date_to_zonedate c off)) == instant c + inject_Z off + 1)%Q.
Proof. exact C50_zone_refuted_proof. Qed.
Print Assumptions C50_zone_refuted.

Example C50_zone_refuted_example : let c := mkDate 2000 1 1 0 0 (5999996 # 100000) in cdate_ok c /\ (9995 # 10000 < frac_sec c)%Q.
Proof. exact C50_zone_refuted_example_proof. Qed.

(** C51: Julian and modified Julian days convert to each other and back, and are refused exactly
    before 17 November 1858. *)
Theorem C51_mjd : forall x,
  (forall y, mjd_to_jd x = Ok y -> exists x', jd_to_mjd y = Ok x' /\ (x' == x)%Q) /\
  (forall y, jd_to_mjd x = Ok y -> exists x', mjd_to_jd y = Ok x' /\ (x' == x)%Q) /\
  (mjd_to_jd x = Raise ValueError <-> (x < 0)%Q) /\ (jd_to_mjd x = Raise ValueError <-> (x < inject_Z (date_to_mjd 1858 11 17) + (4800001 # 2))%Q).
Proof. exact C51_mjd_proof. Qed.
Print Assumptions C51_mjd.

Example C51_mjd_example : match mjd_to_jd (51544 + (1 # 2))%Q with Ok j => (j == 2451545)%Q | _ => False end /\ jd_to_mjd 2400000 = Raise ValueError.
Proof. exact C51_mjd_example_proof. Qed.

(** C51: seconds and Julian-day fractions are inverse to each other. *)
Theorem C51_seconds : forall x, (jd_to_sec (sec_to_jd x) == x)%Q /\ (sec_to_jd (jd_to_sec x) == x)%Q /\ (sec_to_jd 86400 == 1)%Q.
Proof. exact C51_seconds_proof. Qed.
Print Assumptions C51_seconds.

(** C51: the Julian day of a calendar time is noon-based, is the count of days, and grows with the
    time of day within a microsecond. *)
Theorem C51_calendar : forall y m d h mi s, valid_date y m d -> 0 <= h < 24 -> 0 <= mi < 60 -> (0 <= s < 60)%Q ->
  let exact := (get_julian_day y m d 0 0 0 + (inject_Z (h * 3600 + mi * 60) + s) * (1 # 86400))%Q in
  (exact - (1 # 86400000000) < get_julian_day y m d h mi s <= exact)%Q /\
  let '(y', m', d') := next_day y m d in (get_julian_day y' m' d' 0 0 0 == get_julian_day y m d 0 0 0 + 1)%Q.
Proof. exact C51_calendar_proof. Qed.
Print Assumptions C51_calendar.

Example C51_calendar_example : (get_julian_day 2000 1 1 12 0 0 == 2451545)%Q.
Proof. exact C51_calendar_example_proof. Qed.

(** C52: on a day that does not end in a leap second the result is TAI-UTC, for any floating
    point error below 0.04 s. *)
Theorem C52_leap_seconds_partial : forall acc e u, (Qabs e < 4 # 100)%Q -> (63072000 <= u)%Q -> leap acc (day_of u) = 0 ->
  exists r, leap_secs acc e u = Ok r /\ (r == inject_Z (acc (day_of u)))%Q.
Proof. exact C52_leap_seconds_partial_proof. Qed.
Print Assumptions C52_leap_seconds_partial.

(** C52: before 1972 the call is refused. *)
Theorem C52_before_1972 : forall acc e u, (u < 63072000)%Q -> leap_secs acc e u = Raise ValueError.
Proof. exact C52_before_1972_proof. Qed.
Print Assumptions C52_before_1972.

(** C52, finding: at noon of a day that ends in a leap second half a second is added. *)
Theorem C52_leap_day_refuted : forall acc d, leap acc d = 1 -> 730 <= d ->
  exists r, leap_secs acc 0 (inject_Z (86400 * d + 43200)) = Ok r /\ (r == inject_Z (acc d) + (1 # 2))%Q.
Proof. exact C52_leap_day_refuted_proof. Qed.
Print Assumptions C52_leap_day_refuted.

Example C52_example : let acc := fun d => if d <=? 17166 then 36 else 37 in
  leap acc 17166 = 1 /\ leap acc 17167 = 0 /\ match leap_secs acc 0 (inject_Z (86400 * 17167)) with Ok r => (r == 37)%Q | _ => False end.
Proof. exact C52_example_proof. Qed.
