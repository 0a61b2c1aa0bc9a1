(** Property theorems (generated from P_TimeT.v by tools/gen_theorems.py). *)
From Coq Require Import List ZArith QArith Qround Qabs Bool Lqa Lia.
From Verif Require Import LibBytes S_Vdif M_Time M_Cal M_Ndp S_Ndp M_VdifTime P_Num P_Time P_Cal P_Ndp P_VdifTime P_TimeT.
Import ListNotations.
Open Scope Z_scope.

(** C24: a time tag survives the way through a timestamp for any floating point errors
    below 1 s in the seconds and 0.005 ticks in the fraction, if no leap second falls on the day
    (or within 2 s of it).  Missing: days with a leap second, see the refutation. *)
Theorem C24_timetag_round_trip_partial : forall acc value offset e1 e2,
  let u := unix (from_dp_timetag value offset) in
  (Qabs e1 <= 1)%Q -> (Qabs e2 < 1 # 200)%Q ->
  (forall d, day_of (u - 2)%Q <= d <= day_of (u + 2)%Q -> leap acc d = 0) ->
  dp_timetag acc e1 e2 u = value - offset.
Proof. exact C24_timetag_round_trip_partial_proof. Qed.
Print Assumptions C24_timetag_round_trip_partial.

Example C24_timetag_round_trip_example :
  let u := unix (from_dp_timetag 286700000000000123 0) in
  (forall d, day_of (u - 2)%Q <= d <= day_of (u + 2)%Q -> leap acc2016 d = 0) /\
  dp_timetag acc2016 (1 # 10000000) (1 # 1000) u = 286700000000000123.
Proof. exact C24_timetag_round_trip_example_proof. Qed.

(** Timestamps order the same way as the time tags they come from, leap seconds included. *)
Theorem C24_order : forall acc v1 v2 o, (forall d, 0 <= leap acc d) ->
  (ts_lt acc (unix (from_dp_timetag v1 o)) (unix (from_dp_timetag v2 o)) = true <-> v1 < v2).
Proof. exact C24_order_proof. Qed.
Print Assumptions C24_order.

Example C24_order_example : (forall d, 0 <= leap acc2016 d) /\
  ts_lt acc2016 (unix (from_dp_timetag 286700000000000123 5)) (unix (from_dp_timetag 286700000000000124 5)) = true.
Proof. exact C24_order_example_proof. Qed.

(** The difference of two timestamps is the elapsed time: the difference of the UTC times and the leap seconds
    inserted in between (for times on days without one). *)
Theorem C24_difference : forall acc u v, leap acc (day_of u) = 0 -> leap acc (day_of v) = 0 ->
  (ts_sub acc u v == (u - v) + inject_Z (acc (day_of u) - acc (day_of v)))%Q.
Proof. exact C24_difference_proof. Qed.
Print Assumptions C24_difference.

Example C24_difference_example : leap acc2016 (day_of (inject_Z (17168 * 86400))) = 0 /\ leap acc2016 (day_of (inject_Z (17165 * 86400))) = 0 /\
  (ts_sub acc2016 (inject_Z (17168 * 86400)) (inject_Z (17165 * 86400)) == 259201)%Q.
Proof. exact C24_difference_example_proof. Qed.

(** On every day with a leap second there is a time tag that comes back 1134 ticks
    (5.8 microseconds) late, even with no rounding error. *)
Theorem C24_leap_day_refuted : forall acc d, leap acc d = 1 -> 0 <= d ->
  exists tt, day_of (unix (from_dp_timetag tt 0)) = d /\ dp_timetag acc 0 0 (unix (from_dp_timetag tt 0)) = tt + 1134.
Proof. exact C24_leap_day_refuted_proof. Qed.
Print Assumptions C24_leap_day_refuted.

(** C25: a timestamp keeps the instant; its fraction is in [0,1], and is 1 exactly for
    negative whole fractions. *)
Theorem C25_instant_partial : forall si sf,
  (unix (mk_timestamp si sf) == inject_Z si + sf)%Q /\ (0 <= snd (mk_timestamp si sf) <= 1)%Q /\
  ((snd (mk_timestamp si sf) == 1)%Q <-> exists n, n < 0 /\ (sf == inject_Z n)%Q).
Proof. exact C25_instant_partial_proof. Qed.
Print Assumptions C25_instant_partial.

Example C25_instant_example : fst (mk_timestamp 10 (-7 # 2)) = 6 /\ (snd (mk_timestamp 10 (-7 # 2)) == 1 # 2)%Q /\ (unix (mk_timestamp 10 (-7 # 2)) == 13 # 2)%Q.
Proof. exact C25_instant_example_proof. Qed.

(** Float seconds: the sum is kept. *)
Theorem C25_instant_float : forall si sf, (unix (mk_timestamp_f si sf) == si + sf)%Q /\ (0 <= snd (mk_timestamp_f si sf) <= 1)%Q.
Proof. exact C25_instant_float_proof. Qed.
Print Assumptions C25_instant_float.

(** The fraction is not below 1: 10 s minus 1 s is stored as 8 s and a fraction of 1. *)
Theorem C25_fraction_refuted : exists si sf, fst (mk_timestamp si sf) = 8 /\ (snd (mk_timestamp si sf) == 1)%Q.
Proof. exact C25_fraction_refuted_proof. Qed.
Print Assumptions C25_fraction_refuted.

(** The pulsar MJD parts always add up to the instant; they may leave their ranges by one
    step (86400 s, fractions below 2). *)
Theorem C25_pulsar_sum_partial : forall jd1 jd2 m s f, pulsar_mjd jd1 jd2 = (m, s, f) ->
  (inject_Z m * 86400 + inject_Z s + f == (jd1 + jd2 - (4800001 # 2)) * 86400)%Q /\ 0 <= s <= 86400 /\ (0 <= f < 2)%Q.
Proof. exact C25_pulsar_sum_partial_proof. Qed.
Print Assumptions C25_pulsar_sum_partial.

(** For times as astropy stores them (whole days in jd1): the true day, second and fraction, but
    the first second of every day is shown as second 86400 of the day before. *)
Theorem C25_pulsar_split_partial : forall J jd2 D S F m s f, 0 <= S < 86400 -> (0 <= F < 1)%Q ->
  (inject_Z J + jd2 - (4800001 # 2) == inject_Z D + (inject_Z S + F) / 86400)%Q ->
  pulsar_mjd (inject_Z J) jd2 = (m, s, f) ->
  (f == F)%Q /\ if S =? 0 then m = D - 1 /\ s = 86400 else m = D /\ s = S.
Proof. exact C25_pulsar_split_partial_proof. Qed.
Print Assumptions C25_pulsar_split_partial.

Example C25_pulsar_split_example :
  (inject_Z 2460000 + (-1 # 4) - (4800001 # 2) == inject_Z 59999 + (inject_Z 21600 + 0) / 86400)%Q /\
  fst (pulsar_mjd (inject_Z 2460000) (-1 # 4)) = (59999, 21600).
Proof. exact C25_pulsar_split_example_proof. Qed.

Theorem C25_pulsar_midnight_refuted : exists jd1 jd2 f, pulsar_mjd jd1 jd2 = (59998, 86400, f) /\ (f == 0)%Q /\
  (jd1 + jd2 == 59999 + (4800001 # 2))%Q.
Proof. exact C25_pulsar_midnight_refuted_proof. Qed.
Print Assumptions C25_pulsar_midnight_refuted.

(** A timestamp from MJD and milliseconds past midnight is the named instant, on days without
    a leap second. *)
Theorem C25_mjd_mpm_partial : forall acc mjd mpm, 0 <= mpm < 86400000 -> leap acc (mjd - 40587) = 0 ->
  (from_mjd_mpm acc mjd mpm == tai acc (inject_Z ((mjd - 40587) * 86400) + inject_Z mpm / 1000))%Q.
Proof. exact C25_mjd_mpm_partial_proof. Qed.
Print Assumptions C25_mjd_mpm_partial.

Example C25_mjd_mpm_example : 0 <= 43200123 < 86400000 /\ leap acc2016 (59000 - 40587) = 0.
Proof. exact C25_mjd_mpm_example_proof. Qed.

(** C26: MJD and milliseconds past midnight survive conversion to a UTC datetime and back, for
    every day of the years 1 to 9999, if the floating point sum is within half a microsecond. *)
Theorem C26_mjd_there_and_back_partial : forall e mjd mpm,
  (Qabs e < 1 # 2000000)%Q -> 0 <= mpm < 86400000 -> -678575 <= mjd <= 2973483 ->
  exists t, mjdmpm_to_datetime e mjd mpm = Ok t /\ valid_dt t /\ datetime_to_mjdmpm t = (mjd, mpm).
Proof. exact C26_mjd_there_and_back_partial_proof. Qed.
Print Assumptions C26_mjd_there_and_back_partial.

(** Every UTC datetime comes back with its microseconds cut to a millisecond. *)
Theorem C26_datetime_there_and_back_partial : forall e t, (Qabs e < 1 # 2000000)%Q -> valid_dt t ->
  mjdmpm_to_datetime e (fst (datetime_to_mjdmpm t)) (snd (datetime_to_mjdmpm t)) =
  Ok (mkDT (dt_y t) (dt_m t) (dt_d t) (dt_H t) (dt_M t) (dt_S t) (dt_us t - dt_us t mod 1000)).
Proof. exact C26_datetime_there_and_back_partial_proof. Qed.
Print Assumptions C26_datetime_there_and_back_partial.

Example C26_datetime_example : let t := mkDT 2024 2 29 23 59 59 123456 in
  valid_dt t /\ datetime_to_mjdmpm t = (60369, 86399123) /\
  mjdmpm_to_datetime (1 # 4000000) 60369 86399123 = Ok (mkDT 2024 2 29 23 59 59 123000).
Proof. exact C26_datetime_example_proof. Qed.

(** The day number is the count of calendar days since 17 November 1858: it is 0 there and
    grows by one with every calendar day. *)
Theorem C26_day_count : date_to_mjd 1858 11 17 = 0 /\
  forall y m d, valid_date y m d ->
    let '(y', m', d') := next_day y m d in valid_date y' m' d' /\ date_to_mjd y' m' d' = date_to_mjd y m d + 1.
Proof. exact C26_day_count_proof. Qed.
Print Assumptions C26_day_count.

Example C26_day_count_example : valid_date 2000 2 28 /\ next_day 2000 2 28 = (2000, 2, 29) /\ next_day 1900 2 28 = (1900, 3, 1).
Proof. exact C26_day_count_example_proof. Qed.

(** In binary64 the conversion loses a millisecond from 2131 on. *)
Theorem C26_far_future_refuted : exists mjd mpm t, fromtimestamp (mjdmpm_unix_b64 mjd mpm) = Ok t /\ valid_dt t /\
  (mjd, mpm) = (99421, 1) /\ datetime_to_mjdmpm t = (99421, 0).
Proof. exact C26_far_future_refuted_proof. Qed.
Print Assumptions C26_far_future_refuted.

(** C27: every tuning word survives conversion to a frequency and back, for any total
    floating point error below half a word. *)
Theorem C27_word_round_trip : forall w e, (Qabs e < 1 # 2)%Q -> freq_to_word e (word_to_freq w) = w.
Proof. exact C27_word_round_trip_proof. Qed.
Print Assumptions C27_word_round_trip.

Example C27_word_round_trip_example : (Qabs (1 # 1000) < 1 # 2)%Q /\ freq_to_word (1 # 1000) (word_to_freq 1928352663) = 1928352663.
Proof. exact C27_word_round_trip_example_proof. Qed.

(** A frequency is changed by at most half a tuning step, fS/2^33. *)
Theorem C27_nearest : forall f, (Qabs (word_to_freq (freq_to_word 0 f) - f) <= inject_Z fS / inject_Z (2 ^ 33))%Q.
Proof. exact C27_nearest_proof. Qed.
Print Assumptions C27_nearest.

(** C28: a delay within the range of the word (4096 samples) comes back smaller by less than
    1/16 sample; every word survives the way through a delay (exact arithmetic). *)
Theorem C28_delay_partial :
  (forall d, (0 <= d < 4096 * (1000000000 / inject_Z fS))%Q ->
    0 <= delay_to_ndpd d < 65536 /\ (0 <= d - ndpd_to_delay (delay_to_ndpd d) < (1 # 16) * (1000000000 / inject_Z fS))%Q) /\
  (forall w, 0 <= w < 65536 -> delay_to_ndpd (ndpd_to_delay w) = w).
Proof. exact C28_delay_partial_proof. Qed.
Print Assumptions C28_delay_partial.

Example C28_delay_example : (0 <= 1234 < 4096 * (1000000000 / inject_Z fS))%Q /\ delay_to_ndpd 1234 = two_byte_swap (16 * 241 + 13).
Proof. exact C28_delay_example_proof. Qed.

(** A gain in [0,1] comes back smaller by less than 1/32767; every gain word survives. *)
Theorem C28_gain_partial :
  (forall g, (0 <= g <= 1)%Q ->
     0 <= two_byte_swap (gain_to_ndpg g) <= 32767 /\ (0 <= g - ndpg_to_gain (gain_to_ndpg g) < 1 # 32767)%Q) /\
  (forall w, 0 <= w <= 32767 -> gain_to_ndpg (ndpg_to_gain (two_byte_swap w)) = two_byte_swap w).
Proof. exact C28_gain_partial_proof. Qed.
Print Assumptions C28_gain_partial.

(** Byte swapping undoes itself on 16-bit words. *)
Theorem C28_swap : forall w, 0 <= w < 65536 -> 0 <= two_byte_swap w < 65536 /\ two_byte_swap (two_byte_swap w) = w.
Proof. exact C28_swap_proof. Qed.
Print Assumptions C28_swap.

(** The MCS forms are the byte-swapped NDP forms, with the same round trips. *)
Theorem C28_mcs_partial :
  (forall d, (0 <= d < 4096 * (1000000000 / inject_Z fS))%Q ->
     (0 <= d - mcsd_to_delay (delay_to_mcsd d) < (1 # 16) * (1000000000 / inject_Z fS))%Q) /\
  (forall g, (0 <= g <= 1)%Q -> (0 <= g - mcsg_to_gain (gain_to_mcsg g) < 1 # 32767)%Q).
Proof. exact C28_mcs_partial_proof. Qed.
Print Assumptions C28_mcs_partial.

(** In binary64 not every delay word survives: 201 (12 and 9/16 samples) comes back as 200. *)
Theorem C28_delay_float_refuted : exists w, two_byte_swap w = 201 /\ two_byte_swap (delay_to_ndpd_b64 (ndpd_to_delay_b64 w)) = 200.
Proof. exact C28_delay_float_refuted_proof. Qed.
Print Assumptions C28_delay_float_refuted.

(** Delays beyond the range wrap around silently; negative gains come back as positive. *)
Theorem C28_out_of_range_refuted :
  (exists d, (d == 4097 * (1000000000 / inject_Z fS))%Q /\ (ndpd_to_delay (delay_to_ndpd d) == 1000000000 / inject_Z fS)%Q) /\
  (exists g, (g == -1)%Q /\ (ndpg_to_gain (gain_to_ndpg g) == 32769 # 32767)%Q).
Proof. exact C28_out_of_range_refuted_proof. Qed.
Print Assumptions C28_out_of_range_refuted.

(** C29: the result has exactly the given shape and element [idx] is the input element at the
    row-major position of [idx]; sizes that disagree raise ValueError. *)
Theorem C29_flat_to_multi_partial : forall (A : Type) (input : list A) shape, shape <> [] -> Forall (fun d => 1 <= d) shape ->
  (size shape = zlen input ->
    exists t, flat_to_multi input shape = Ok t /\ shaped shape t /\
      forall idx, in_shape shape idx -> get idx t = nth_error input (Z.to_nat (row_major shape idx))) /\
  (size shape <> zlen input -> flat_to_multi input shape = Raise ValueError).
Proof. exact C29_flat_to_multi_partial_proof. Qed.
Print Assumptions C29_flat_to_multi_partial.

Example C29_flat_to_multi_example : size [2; 3] = zlen [10; 11; 12; 13; 14; 15] /\ in_shape [2; 3] [1; 2] /\ row_major [2; 3] [1; 2] = 5 /\
  flat_to_multi [10; 11; 12; 13; 14; 15] [2; 3] = Ok (Node [Node [Leaf 10; Leaf 11; Leaf 12]; Node [Leaf 13; Leaf 14; Leaf 15]]).
Proof. exact C29_flat_to_multi_example_proof. Qed.

(** A zero dimension raises ValueError although the sizes agree, and negative dimensions are accepted. *)
Theorem C29_dimensions_refuted :
  flat_to_multi (@nil Z) [2; 0] = Raise ValueError /\ flat_to_multi [1; 2; 3; 4; 5; 6] [-2; -3] = Ok (Node []).
Proof. exact C29_dimensions_refuted_proof. Qed.
Print Assumptions C29_dimensions_refuted.

(** C48: the time of a frame is the start of the reference half-year plus the seconds plus the
    offset in the second, if no leap second falls between the day before the epoch and the
    frame. *)
Theorem C48_vdif_time_partial : forall acc e s off u, (forall d, 0 <= leap acc d) -> let d0 := epoch_day e in
  0 <= s -> (0 <= off)%Q ->
  (forall d, d0 - 1 <= d <= day_of (inject_Z (86400 * d0) + inject_Z s + off) -> leap acc d = 0) ->
  (vdif_time acc e s off u <-> (u == inject_Z (86400 * d0) + inject_Z s + off)%Q).
Proof. exact C48_vdif_time_partial_proof. Qed.
Print Assumptions C48_vdif_time_partial.

Example C48_vdif_time_example : epoch_day 37 = 17713 /\
  (forall d, 17713 - 1 <= d <= day_of (inject_Z (86400 * 17713) + inject_Z 10000000 + (1 # 2)) -> leap acc2016 d = 0).
Proof. exact C48_vdif_time_example_proof. Qed.

(** The number of time samples of a recorded frame, from its header: the recorded values shared among the channels
    (and the parts of complex numbers). *)
Theorem C48_frame_samples : forall r, vdif_ok r ->
  vdif_samples (frame_len r / 8) (b2z (r_legacy r)) (r_bits r) (2 ^ r_lognchan r) (r_complex r) = Ok (zlen (r_levels r) / (parts r * 2 ^ r_lognchan r)).
Proof. exact C48_frame_samples_proof. Qed.
Print Assumptions C48_frame_samples.

Example C48_frame_samples_example : let r := mkVrec true false 1 2 3 0 3 5 7 1 false (0, 0, 0, 0) (repeat 0 64) in
  vdif_ok r /\ vdif_samples (frame_len r / 8) 1 1 8 false = Ok 8.
Proof. exact C48_frame_samples_example_proof. Qed.

(** Frame [k] of a second with [R] frames of [n] samples starts k/R seconds into it. *)
Theorem C48_frame_offset : forall n R k, 0 < n -> 0 < R -> vdif_offset (inject_Z (n * R)) n k = Ok (inject_Z k / inject_Z R)%Q.
Proof. exact C48_frame_offset_proof. Qed.
Print Assumptions C48_frame_offset.

Example C48_frame_offset_example : vdif_offset 10000000 5000 1999 = Ok (1999 # 2000)%Q.
Proof. exact C48_frame_offset_example_proof. Qed.

(** A time written to a frame (half-year, seconds, frame number at [R] frames per second) and read
    back differs by at most half a frame. *)
Theorem C48_write_read_partial : forall acc u R e s k u', (forall d, 0 <= leap acc d) -> 0 < R ->
  set_epoch acc u (inject_Z R) = (e, s, k) ->
  (forall d, epoch_day e - 1 <= d <= day_of (u + 1) -> leap acc d = 0) ->
  (vdif_time acc e s (inject_Z k / inject_Z R) u' -> (Qabs (u' - u) <= (1 # 2) / inject_Z R)%Q) /\
  (exists v, vdif_time acc e s (inject_Z k / inject_Z R) v) /\
  epoch_day e <= day_of u < epoch_day (e + 1) /\ 0 <= k <= R.
Proof. exact C48_write_read_partial_proof. Qed.
Print Assumptions C48_write_read_partial.

Example C48_write_read_example :
  set_epoch acc2016 (1600000000 + (3 # 10)) 25000 = (41, 6438400, 7500).
Proof. exact C48_write_read_example_proof. Qed.

(** In the half-year after a leap second every time from the first noon on reads half a second
    late. *)
Theorem C48_half_second_refuted : forall acc e s off u, (forall d, 0 <= leap acc d) -> let d0 := epoch_day e in
  43200 <= s -> (0 <= off)%Q -> leap acc (d0 - 1) = 1 ->
  (forall d, d0 <= d <= day_of (inject_Z (86400 * d0) + inject_Z s + off + (1 # 2)) -> leap acc d = 0) ->
  (vdif_time acc e s off u <-> (u == inject_Z (86400 * d0) + inject_Z s + off + (1 # 2))%Q).
Proof. exact C48_half_second_refuted_proof. Qed.
Print Assumptions C48_half_second_refuted.

Example C48_half_second_example : leap acc2016 (epoch_day 34 - 1) = 1 /\
  (forall d, epoch_day 34 <= d <= day_of (inject_Z (86400 * epoch_day 34) + inject_Z 50000 + 0 + (1 # 2)) -> leap acc2016 d = 0).
Proof. exact C48_half_second_example_proof. Qed.

(** The frame number written can equal the number of frames per second (it should be 0 of the
    next second), and from 2032 on the epoch does not fit its six bits. *)
Theorem C48_header_refuted :
  (exists u e s, set_epoch acc2016 u 10 = (e, s, 10)) /\ (exists u e s k, day_of u = 22645 /\ set_epoch acc2016 u 10 = (e, s, k) /\ e = 64).
Proof. exact C48_header_refuted_proof. Qed.
Print Assumptions C48_header_refuted.
