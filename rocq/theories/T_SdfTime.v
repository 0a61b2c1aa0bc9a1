(** Property theorems (generated from P_SdfTimeT.v by tools/gen_theorems.py). *)
From Coq Require Import Ascii String.
From Coq Require Import List ZArith Bool Lia QArith Qround Qabs Lqa.
From Verif Require Import M_Str P_Str P_Bar M_Sdf M_SdfTime S_SdfTime P_Num P_Flt P_SdfTime P_SdfStart P_SdfTimeT.
Import ListNotations.
Open Scope Z_scope.
Ltac Zify.zify_post_hook ::= Z.div_mod_to_equations.

(** Setting the duration to the text that reading it gives changes nothing, for every number of milliseconds up to
    more than thirty years. *)
Theorem C56_duration_round_trip : forall dur, 0 <= dur <= 10 ^ 12 -> set_duration (get_duration dur) = inr dur.
Proof. exact C56_duration_round_trip_proof. Qed.
Print Assumptions C56_duration_round_trip.

Example C56_duration_round_trip_example : get_duration 3723004 = tx "1:02:03.004" /\ set_duration (tx "1:02:03.004") = inr 3723004.
Proof. exact C56_duration_round_trip_example_proof. Qed.

(** The duration that parse_sdf() makes of the milliseconds in a file is the same number of milliseconds. *)
Theorem C56_parse_sdf_duration : forall dur, 0 <= dur <= 10 ^ 12 -> set_duration (dur_string dur) = inr dur.
Proof. exact C56_parse_sdf_duration_proof. Qed.
Print Assumptions C56_parse_sdf_duration.

Example C56_parse_sdf_duration_example : dur_string 7199999 = tx "01:59:59.999".
Proof. exact C56_parse_sdf_duration_example_proof. Qed.

(** A duration written as [[hours:]minutes:]seconds[.fraction] is taken to the nearest millisecond (up to a 4096th of
    one where that is a close call), for up to 2^30 seconds. *)
Theorem C56_duration_text : forall s total, hms_text s total -> (total <= 1073741824)%Q ->
  exists k, set_duration s = inr k /\ (Qabs (inject_Z k - 1000 * total) <= (1 # 2) + (1 # 4096))%Q.
Proof. exact C56_duration_text_proof. Qed.
Print Assumptions C56_duration_text.

(** And if it is a whole number of milliseconds, exactly that. *)
Theorem C56_duration_exact : forall s total k, hms_text s total -> (total <= 1073741824)%Q -> (1000 * total == inject_Z k)%Q -> set_duration s = inr k.
Proof. exact C56_duration_exact_proof. Qed.
Print Assumptions C56_duration_exact.

Example C56_duration_text_example : hms_text (tx "0:30:00.0625") (28801 # 16)%Q /\ set_duration (tx "0:30:00.0625") = inr 1800062 /\ hms_text (tx "90") 90 /\ set_duration (tx "90") = inr 90000.
Proof. exact C56_duration_text_example_proof. Qed.

(** A timedelta is taken to the nearest millisecond (microseconds here), a number of seconds too. *)
Theorem C56_duration_timedelta : forall days secs us, 0 <= days <= 10 ^ 6 -> 0 <= secs < 86400 -> 0 <= us < 1000000 ->
  let k := set_duration_timedelta days secs us in 1000 * k - 500 <= (days * 86400 + secs) * 1000000 + us <= 1000 * k + 500.
Proof. exact C56_duration_timedelta_proof. Qed.
Print Assumptions C56_duration_timedelta.

Theorem C56_duration_number : forall x, (0 <= x)%Q -> (x <= 1073741824)%Q -> (Qabs (inject_Z (set_duration_number x) - 1000 * x) <= (1 # 2) + (1 # 4096))%Q.
Proof. exact C56_duration_number_proof. Qed.
Print Assumptions C56_duration_number.

Example C56_duration_timedelta_example : set_duration_timedelta 1 1 999700 = 86402000 /\ set_duration_number (fl (1 # 10)) = 100.
Proof. exact C56_duration_timedelta_example_proof. Qed.

(** REFUTED: a duration given as an astropy quantity, which the setter has a branch for, is a NameError. *)
Theorem C56_duration_quantity_refuted : forall seconds, set_duration_quantity seconds = inl NameError.
Proof. exact C56_duration_quantity_refuted_proof. Qed.
Print Assumptions C56_duration_quantity_refuted.

(** Setting the start to the text that reading it gives changes nothing: every day of the years 1 to 9999, every
    millisecond, in double precision. *)
Theorem C57_start_round_trip : forall named mjd mpm, -678575 <= mjd <= 2973483 -> 0 <= mpm < 86400000 ->
  exists s, get_start mjd mpm = inr s /\ set_start named s = inr (mjd, mpm).
Proof. exact C57_start_round_trip_proof. Qed.
Print Assumptions C57_start_round_trip.

Example C57_start_round_trip_example : get_start 57753 43200250 = inr (tx "UTC 2016/12/31 12:00:00.250000").
Proof. exact C57_start_round_trip_example_proof. Qed.

(** PARTIAL (missing: days with a leap second, see the refutation): the start time that parse_sdf() makes of the day
    and millisecond in a file, by way of a floating-point day number, is that day and millisecond, if the conversion of
    the day number to a calendar time is right to one part in 10^10 of a day. *)
Theorem C57_parse_sdf_start_partial : forall named leap e mjd mpm, 0 <= mjd <= 2973483 -> 0 <= mpm < 86400000 -> leap mjd = false -> (Qabs e <= 1 # 10000000000)%Q ->
  exists s, utc_string leap e mjd mpm = inr s /\ set_start named s = inr (mjd, mpm).
Proof. exact C57_parse_sdf_start_partial_proof. Qed.
Print Assumptions C57_parse_sdf_start_partial.

Example C57_parse_sdf_start_example : utc_string (fun _ => false) 0 55000 86399999 = inr (tx "UTC 2009 06 18 23:59:59.999").
Proof. exact C57_parse_sdf_start_example_proof. Qed.

(** REFUTED on days with a leap second: the fraction of such a day is taken of 86401 seconds, and an observation in
    the middle of it starts half a second late. *)
Theorem C57_parse_sdf_leap_day_refuted : exists leap mjd mpm s, leap mjd = true /\ utc_string leap 0 mjd mpm = inr s /\ forall named, set_start named s = inr (mjd, mpm + 500).
Proof. exact C57_parse_sdf_leap_day_refuted_proof. Qed.
Print Assumptions C57_parse_sdf_leap_day_refuted.

(** PARTIAL (missing: the last half of a millisecond of each second, see the refutation): a time written as
    [UT[C] ]year-month-day hour:minute:second[.fraction], the month by number or name, is read as that day and time, to
    the nearest millisecond. *)
Theorem C57_time_text_partial : forall named t f s, valid_dt t -> time_text t f s ->
  exists k, (Qabs (1000 * fraction f - inject_Z k) <= 1 # 2)%Q /\ 0 <= k <= 1000 /\
    (k < 1000 -> parse_time named s = inr (with_us t (1000 * k)) /\ set_start named s = inr (day_number (dt_y t) (dt_m t) (dt_d t), 1000 * second_of_day t + k)).
Proof. exact C57_time_text_partial_proof. Qed.
Print Assumptions C57_time_text_partial.

Example C57_time_text_example : let t := mkDT 2013 1 5 18 2 8 0 in
  valid_dt t /\ time_text t (tx "12") (tx "UT 2013-Jan-5T18:02:08.12") /\ forall named, parse_time named (tx "UT 2013-Jan-5T18:02:08.12") = inr (with_us t 120000).
Proof. exact C57_time_text_example_proof. Qed.

(** REFUTED for the last half millisecond of a second: the fraction is rounded up to a whole second, which datetime()
    refuses.  So for texts as for datetime objects. *)
Theorem C57_last_half_millisecond_refuted : forall named t f s, valid_dt t -> time_text t f s -> (9995 # 10000 < fraction f)%Q -> parse_time named s = inl ValueError.
Proof. exact C57_last_half_millisecond_refuted_proof. Qed.
Print Assumptions C57_last_half_millisecond_refuted.

Example C57_last_half_millisecond_refuted_example : forall named, parse_time named (tx "2013/01/01 18:00:00.9996") = inl ValueError.
Proof. exact C57_last_half_millisecond_refuted_example_proof. Qed.

Theorem C57_last_half_millisecond_datetime_refuted : forall t, valid_dt t -> 999500 < dt_us t -> parse_time_datetime t = inl ValueError.
Proof. exact C57_last_half_millisecond_datetime_refuted_proof. Qed.
Print Assumptions C57_last_half_millisecond_datetime_refuted.

(** PARTIAL (missing: that last half millisecond): a datetime in UTC is taken to the nearest millisecond. *)
Theorem C57_datetime_partial : forall t, valid_dt t -> dt_us t < 999500 -> exists k, parse_time_datetime t = inr (with_us t (1000 * k)) /\ 1000 * k - 500 <= dt_us t <= 1000 * k + 500.
Proof. exact C57_datetime_partial_proof. Qed.
Print Assumptions C57_datetime_partial.

Example C57_datetime_example : valid_dt (mkDT 2013 1 1 18 0 0 123456) /\ parse_time_datetime (mkDT 2013 1 1 18 0 0 123456) = inr (mkDT 2013 1 1 18 0 0 123000).
Proof. exact C57_datetime_example_proof. Qed.

(** A time with an offset from UTC of two-digit hours and minutes is read as the instant that many seconds earlier,
    to the nearest millisecond; outside the years 1 to 9999 it is an OverflowError. *)
Theorem C57_offset_text : forall named t f s o r, valid_dt t -> time_text t f s -> offset_text o r ->
  exists k, (Qabs (1000 * fraction f - inject_Z k) <= 1 # 2)%Q /\ 0 <= k <= 1000 /\
    (k < 1000 -> (exists t', parse_time named (s ++ r) = inr t' /\ valid_dt t' /\ instant t' = instant (with_us t (1000 * k)) - o * 1000000) \/
                 (parse_time named (s ++ r) = inl OverflowError /\ ~ exists t', valid_dt t' /\ instant t' = instant (with_us t (1000 * k)) - o * 1000000)).
Proof. exact C57_offset_text_proof. Qed.
Print Assumptions C57_offset_text.

Example C57_offset_text_example : offset_text (-25200) (tx " -07:00") /\ forall named, parse_time named (tx "2013/01/01 18:00:00 -07:00") = inr (mkDT 2013 1 2 1 0 0 0).
Proof. exact C57_offset_text_example_proof. Qed.

(** REFUTED for hours of one digit, which the syntax allows: +1:30 is taken for thirteen hours, +5:30 and +05 are
    ValueErrors. *)
Theorem C57_offset_one_digit_refuted : forall named,
  parse_time named (tx "2013/01/01 18:00:00 +1:30") = inr (mkDT 2013 1 1 5 0 0 0) /\
  parse_time named (tx "2013/01/01 18:00:00 +5:30") = inl ValueError /\ parse_time named (tx "2013/01/01 18:00:00 +05") = inl ValueError.
Proof. exact C57_offset_one_digit_refuted_proof. Qed.
Print Assumptions C57_offset_one_digit_refuted.

(** Observations are sorted by a floating-point day number; that is the order of their start times, to the millisecond. *)
Theorem C54_sort_order : forall d1 p1 d2 p2, 0 <= d1 <= 2973483 -> 0 <= p1 < 86400000 -> 0 <= d2 <= 2973483 -> 0 <= p2 < 86400000 ->
  (start_key d1 p1 < start_key d2 p2)%Q <-> d1 * 86400000 + p1 < d2 * 86400000 + p2.
Proof. exact C54_sort_order_proof. Qed.
Print Assumptions C54_sort_order.

Example C54_sort_order_example : (start_key 60000 43199999 < start_key 60000 43200000)%Q.
Proof. exact C54_sort_order_example_proof. Qed.
