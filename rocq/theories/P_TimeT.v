(** Final forms of the time, calendar and word-conversion properties
    (C24-C29, C48). *)
From Coq Require Import List ZArith QArith Qround Qabs Bool Lqa Lia.
From Verif Require Import LibBytes S_Vdif M_Time M_Cal M_Ndp S_Ndp M_VdifTime P_Num P_Time P_Cal P_Ndp P_VdifTime.
Import ListNotations.
Open Scope Z_scope.

(** The leap second at the end of 31 December 2016 (day 17166 since 1970). *)
Definition acc2016 (d : Z) : Z := if d <=? 17166 then 26 else 27.
Lemma acc2016_leap : forall d, leap acc2016 d = if d =? 17166 then 1 else 0.
Proof. intro d. unfold leap, acc2016. destruct (Z.leb_spec (d + 1) 17166), (Z.leb_spec d 17166), (Z.eqb_spec d 17166); lia. Qed.

(** ** C24 *)
(** C24: a time tag survives the way through a timestamp for any floating point errors
    below 1 s in the seconds and 0.005 ticks in the fraction, if no leap second falls on the day
    (or within 2 s of it).  Missing: days with a leap second, see the refutation. *)
Lemma C24_timetag_round_trip_partial_proof : forall acc value offset e1 e2,
  let u := unix (from_dp_timetag value offset) in
  (Qabs e1 <= 1)%Q -> (Qabs e2 < 1 # 200)%Q ->
  (forall d, day_of (u - 2)%Q <= d <= day_of (u + 2)%Q -> leap acc d = 0) ->
  dp_timetag acc e1 e2 u = value - offset.
Proof.
  intros acc value offset e1 e2 u H1 H2 HL.
  assert (E : (u == inject_Z (value - offset) / inject_Z fS)%Q) by apply tag_unix.
  transitivity (dp_timetag acc e1 e2 (inject_Z (value - offset) / inject_Z fS)).
  - unfold dp_timetag, py_round2. assert (S1 : py_int (u + e1) = py_int (inject_Z (value - offset) / inject_Z fS + e1)) by (rewrite E; reflexivity).
    rewrite S1. f_equal. apply py_int_compat. rewrite E. reflexivity.
  - apply dp_timetag_ok; auto. intros d Hd. apply HL. rewrite E. exact Hd.
Qed.
Lemma C24_timetag_round_trip_example_proof :
  let u := unix (from_dp_timetag 286700000000000123 0) in
  (forall d, day_of (u - 2)%Q <= d <= day_of (u + 2)%Q -> leap acc2016 d = 0) /\
  dp_timetag acc2016 (1 # 10000000) (1 # 1000) u = 286700000000000123.
Proof.
  cbv zeta. split; [|vm_compute; reflexivity]. intros d Hd. rewrite acc2016_leap. destruct (Z.eqb_spec d 17166) as [->|]; [|reflexivity].
  vm_compute in Hd. destruct Hd as [_ Hd]. contradiction Hd. reflexivity.
Qed.

(** Timestamps order the same way as the time tags they come from, leap seconds included. *)
Lemma C24_order_proof : forall acc v1 v2 o, (forall d, 0 <= leap acc d) ->
  (ts_lt acc (unix (from_dp_timetag v1 o)) (unix (from_dp_timetag v2 o)) = true <-> v1 < v2).
Proof.
  intros acc v1 v2 o HL. rewrite (ts_lt_ok acc HL), !tag_unix.
  assert (P : (0 < inject_Z fS)%Q) by reflexivity. split; intro H.
  - assert (X : (inject_Z (v1 - o) < inject_Z (v2 - o))%Q).
    { setoid_replace (inject_Z (v1 - o)) with (inject_Z (v1 - o) / inject_Z fS * inject_Z fS)%Q by (field; discriminate).
      setoid_replace (inject_Z (v2 - o)) with (inject_Z (v2 - o) / inject_Z fS * inject_Z fS)%Q by (field; discriminate).
      apply Qmult_lt_compat_r; auto. }
    apply (proj1 (injZ_lt _ _)) in X. lia.
  - unfold Qdiv. apply Qmult_lt_compat_r; [reflexivity|]. apply injZ_lt. lia.
Qed.
Lemma C24_order_example_proof : (forall d, 0 <= leap acc2016 d) /\
  ts_lt acc2016 (unix (from_dp_timetag 286700000000000123 5)) (unix (from_dp_timetag 286700000000000124 5)) = true.
Proof. split; [intro d; rewrite acc2016_leap; destruct (d =? 17166); lia|vm_compute; reflexivity]. Qed.

(** The difference of two timestamps is the elapsed time: the difference of the UTC times and the leap seconds
    inserted in between (for times on days without one). *)
Lemma C24_difference_proof : forall acc u v, leap acc (day_of u) = 0 -> leap acc (day_of v) = 0 ->
  (ts_sub acc u v == (u - v) + inject_Z (acc (day_of u) - acc (day_of v)))%Q.
Proof.
  intros acc u v A B. unfold ts_sub, tai. rewrite A, B. unfold Z.sub. rewrite inject_Z_plus, inject_Z_opp. change (inject_Z 0) with 0%Q. ring.
Qed.
Lemma C24_difference_example_proof : leap acc2016 (day_of (inject_Z (17168 * 86400))) = 0 /\ leap acc2016 (day_of (inject_Z (17165 * 86400))) = 0 /\
  (ts_sub acc2016 (inject_Z (17168 * 86400)) (inject_Z (17165 * 86400)) == 259201)%Q.
Proof. split; [vm_compute; reflexivity|]. split; vm_compute; reflexivity. Qed.

(** On every day with a leap second there is a time tag that comes back 1134 ticks
    (5.8 microseconds) late, even with no rounding error. *)
Lemma C24_leap_day_refuted_proof : forall acc d, leap acc d = 1 -> 0 <= d ->
  exists tt, day_of (unix (from_dp_timetag tt 0)) = d /\ dp_timetag acc 0 0 (unix (from_dp_timetag tt 0)) = tt + 1134.
Proof.
  intros acc d HL Hd. exists (86400 * d * fS + 98000000). split; [|apply leap_day_tag; auto].
  assert (U : (unix (from_dp_timetag (86400 * d * fS + 98000000) 0) == inject_Z (86400 * d) + (1 # 2))%Q).
  { rewrite tag_unix, Z.sub_0_r, inject_Z_plus, (inject_Z_mult _ fS).
    change (inject_Z fS) with 196000000%Q. change (inject_Z 98000000) with 98000000%Q. field. }
  rewrite U. apply floor_eq.
  - apply Qle_shift_div_l; [reflexivity|]. rewrite inject_Z_mult. change (inject_Z 86400) with 86400%Q. lra.
  - apply Qlt_shift_div_r; [reflexivity|]. rewrite inject_Z_mult. change (inject_Z 86400) with 86400%Q. lra.
Qed.

(** ** C25 *)
(** C25: a timestamp keeps the instant; its fraction is in [0,1], and is 1 exactly for
    negative whole fractions. *)
Lemma C25_instant_partial_proof : forall si sf,
  (unix (mk_timestamp si sf) == inject_Z si + sf)%Q /\ (0 <= snd (mk_timestamp si sf) <= 1)%Q /\
  ((snd (mk_timestamp si sf) == 1)%Q <-> exists n, n < 0 /\ (sf == inject_Z n)%Q).
Proof. intros. split; [apply mk_unix|]. split; [apply mk_range|apply mk_one]. Qed.
Lemma C25_instant_example_proof : fst (mk_timestamp 10 (-7 # 2)) = 6 /\ (snd (mk_timestamp 10 (-7 # 2)) == 1 # 2)%Q /\ (unix (mk_timestamp 10 (-7 # 2)) == 13 # 2)%Q.
Proof. vm_compute. auto. Qed.
(** Float seconds: the sum is kept. *)
Lemma C25_instant_float_proof : forall si sf, (unix (mk_timestamp_f si sf) == si + sf)%Q /\ (0 <= snd (mk_timestamp_f si sf) <= 1)%Q.
Proof. intros. split; [apply mk_f_unix|apply mk_range]. Qed.
(** The fraction is not below 1: 10 s minus 1 s is stored as 8 s and a fraction of 1. *)
Lemma C25_fraction_refuted_proof : exists si sf, fst (mk_timestamp si sf) = 8 /\ (snd (mk_timestamp si sf) == 1)%Q.
Proof. exists 10, (-1)%Q. vm_compute. auto. Qed.

(** The pulsar MJD parts always add up to the instant; they may leave their ranges by one
    step (86400 s, fractions below 2). *)
Lemma C25_pulsar_sum_partial_proof : forall jd1 jd2 m s f, pulsar_mjd jd1 jd2 = (m, s, f) ->
  (inject_Z m * 86400 + inject_Z s + f == (jd1 + jd2 - (4800001 # 2)) * 86400)%Q /\ 0 <= s <= 86400 /\ (0 <= f < 2)%Q.
Proof. exact pulsar_all. Qed.
(** For times as astropy stores them (whole days in jd1): the true day, second and fraction, but
    the first second of every day is shown as second 86400 of the day before. *)
Lemma C25_pulsar_split_partial_proof : forall J jd2 D S F m s f, 0 <= S < 86400 -> (0 <= F < 1)%Q ->
  (inject_Z J + jd2 - (4800001 # 2) == inject_Z D + (inject_Z S + F) / 86400)%Q ->
  pulsar_mjd (inject_Z J) jd2 = (m, s, f) ->
  (f == F)%Q /\ if S =? 0 then m = D - 1 /\ s = 86400 else m = D /\ s = S.
Proof. exact pulsar_norm. Qed.
Lemma C25_pulsar_split_example_proof :
  (inject_Z 2460000 + (-1 # 4) - (4800001 # 2) == inject_Z 59999 + (inject_Z 21600 + 0) / 86400)%Q /\
  fst (pulsar_mjd (inject_Z 2460000) (-1 # 4)) = (59999, 21600).
Proof. vm_compute. auto. Qed.
Lemma C25_pulsar_midnight_refuted_proof : exists jd1 jd2 f, pulsar_mjd jd1 jd2 = (59998, 86400, f) /\ (f == 0)%Q /\
  (jd1 + jd2 == 59999 + (4800001 # 2))%Q.
Proof. exists (inject_Z 2460000), (-1 # 2), (snd (pulsar_mjd (inject_Z 2460000) (-1 # 2))). vm_compute. auto. Qed.

(** A timestamp from MJD and milliseconds past midnight is the named instant, on days without
    a leap second. *)
Lemma C25_mjd_mpm_partial_proof : forall acc mjd mpm, 0 <= mpm < 86400000 -> leap acc (mjd - 40587) = 0 ->
  (from_mjd_mpm acc mjd mpm == tai acc (inject_Z ((mjd - 40587) * 86400) + inject_Z mpm / 1000))%Q.
Proof. exact from_mjd_mpm_ok. Qed.
Lemma C25_mjd_mpm_example_proof : 0 <= 43200123 < 86400000 /\ leap acc2016 (59000 - 40587) = 0.
Proof. split; [lia|reflexivity]. Qed.

(** ** C26 *)
(** C26: MJD and milliseconds past midnight survive conversion to a UTC datetime and back, for
    every day of the years 1 to 9999, if the floating point sum is within half a microsecond. *)
Lemma C26_mjd_there_and_back_partial_proof : forall e mjd mpm,
  (Qabs e < 1 # 2000000)%Q -> 0 <= mpm < 86400000 -> -678575 <= mjd <= 2973483 ->
  exists t, mjdmpm_to_datetime e mjd mpm = Ok t /\ valid_dt t /\ datetime_to_mjdmpm t = (mjd, mpm).
Proof. exact cal_there_back. Qed.
(** Every UTC datetime comes back with its microseconds cut to a millisecond. *)
Lemma C26_datetime_there_and_back_partial_proof : forall e t, (Qabs e < 1 # 2000000)%Q -> valid_dt t ->
  mjdmpm_to_datetime e (fst (datetime_to_mjdmpm t)) (snd (datetime_to_mjdmpm t)) =
  Ok (mkDT (dt_y t) (dt_m t) (dt_d t) (dt_H t) (dt_M t) (dt_S t) (dt_us t - dt_us t mod 1000)).
Proof. exact cal_back_there. Qed.
Lemma C26_datetime_example_proof : let t := mkDT 2024 2 29 23 59 59 123456 in
  valid_dt t /\ datetime_to_mjdmpm t = (60369, 86399123) /\
  mjdmpm_to_datetime (1 # 4000000) 60369 86399123 = Ok (mkDT 2024 2 29 23 59 59 123000).
Proof. cbv zeta. unfold valid_dt, valid_date. cbn [dt_y dt_m dt_d dt_H dt_M dt_S dt_us]. change (days_in 2024 2) with 29. split; [lia|vm_compute; auto]. Qed.
(** The day number is the count of calendar days since 17 November 1858: it is 0 there and
    grows by one with every calendar day. *)
Lemma C26_day_count_proof : date_to_mjd 1858 11 17 = 0 /\
  forall y m d, valid_date y m d ->
    let '(y', m', d') := next_day y m d in valid_date y' m' d' /\ date_to_mjd y' m' d' = date_to_mjd y m d + 1.
Proof.
  split; [reflexivity|]. intros y m d V. pose proof (next_day_mjd y m d V) as N.
  destruct (next_day y m d) as [[y' m'] d']. rewrite !date_to_mjd_z. exact N.
Qed.
Lemma C26_day_count_example_proof : valid_date 2000 2 28 /\ next_day 2000 2 28 = (2000, 2, 29) /\ next_day 1900 2 28 = (1900, 3, 1).
Proof. split; [unfold valid_date; change (days_in 2000 2) with 29; lia|vm_compute; auto]. Qed.
(** In binary64 the conversion loses a millisecond from 2131 on. *)
Lemma C26_far_future_refuted_proof : exists mjd mpm t, fromtimestamp (mjdmpm_unix_b64 mjd mpm) = Ok t /\ valid_dt t /\
  (mjd, mpm) = (99421, 1) /\ datetime_to_mjdmpm t = (99421, 0).
Proof.
  exists 99421, 1, (mkDT 2131 1 31 0 0 0 999). split; [vm_compute; reflexivity|].
  split; [|split; [reflexivity|vm_compute; reflexivity]].
  unfold valid_dt, valid_date. cbn [dt_y dt_m dt_d dt_H dt_M dt_S dt_us]. change (days_in 2131 1) with 31. lia.
Qed.

(** ** C27 *)
(** C27: every tuning word survives conversion to a frequency and back, for any total
    floating point error below half a word. *)
Lemma C27_word_round_trip_proof : forall w e, (Qabs e < 1 # 2)%Q -> freq_to_word e (word_to_freq w) = w.
Proof. exact word_freq_word. Qed.
Lemma C27_word_round_trip_example_proof : (Qabs (1 # 1000) < 1 # 2)%Q /\ freq_to_word (1 # 1000) (word_to_freq 1928352663) = 1928352663.
Proof. vm_compute. auto. Qed.
(** A frequency is changed by at most half a tuning step, fS/2^33. *)
Lemma C27_nearest_proof : forall f, (Qabs (word_to_freq (freq_to_word 0 f) - f) <= inject_Z fS / inject_Z (2 ^ 33))%Q.
Proof. exact freq_near. Qed.

(** ** C28 *)
(** C28: a delay within the range of the word (4096 samples) comes back smaller by less than
    1/16 sample; every word survives the way through a delay (exact arithmetic). *)
Lemma C28_delay_partial_proof :
  (forall d, (0 <= d < 4096 * (1000000000 / inject_Z fS))%Q ->
    0 <= delay_to_ndpd d < 65536 /\ (0 <= d - ndpd_to_delay (delay_to_ndpd d) < (1 # 16) * (1000000000 / inject_Z fS))%Q) /\
  (forall w, 0 <= w < 65536 -> delay_to_ndpd (ndpd_to_delay w) = w).
Proof. split; [exact delay_trip|exact word_delay_word]. Qed.
Lemma C28_delay_example_proof : (0 <= 1234 < 4096 * (1000000000 / inject_Z fS))%Q /\ delay_to_ndpd 1234 = two_byte_swap (16 * 241 + 13).
Proof. vm_compute. intuition congruence. Qed.
(** A gain in [0,1] comes back smaller by less than 1/32767; every gain word survives. *)
Lemma C28_gain_partial_proof :
  (forall g, (0 <= g <= 1)%Q ->
     0 <= two_byte_swap (gain_to_ndpg g) <= 32767 /\ (0 <= g - ndpg_to_gain (gain_to_ndpg g) < 1 # 32767)%Q) /\
  (forall w, 0 <= w <= 32767 -> gain_to_ndpg (ndpg_to_gain (two_byte_swap w)) = two_byte_swap w).
Proof.
  split; [exact gain_trip|]. intros w H. unfold ndpg_to_gain. rewrite swap_inv by lia. apply gain_word. auto.
Qed.
(** Byte swapping undoes itself on 16-bit words. *)
Lemma C28_swap_proof : forall w, 0 <= w < 65536 -> 0 <= two_byte_swap w < 65536 /\ two_byte_swap (two_byte_swap w) = w.
Proof. intros w H. split; [apply swap_range|apply swap_inv; auto]. Qed.
(** The MCS forms are the byte-swapped NDP forms, with the same round trips. *)
Lemma C28_mcs_partial_proof :
  (forall d, (0 <= d < 4096 * (1000000000 / inject_Z fS))%Q ->
     (0 <= d - mcsd_to_delay (delay_to_mcsd d) < (1 # 16) * (1000000000 / inject_Z fS))%Q) /\
  (forall g, (0 <= g <= 1)%Q -> (0 <= g - mcsg_to_gain (gain_to_mcsg g) < 1 # 32767)%Q).
Proof.
  split.
  - intros d H. unfold mcsd_to_delay, delay_to_mcsd. rewrite swap_inv by (apply delay_trip; auto). apply delay_trip. auto.
  - intros g H. unfold mcsg_to_gain, gain_to_mcsg. rewrite swap_inv by (apply swap_range). apply gain_trip. auto.
Qed.
(** In binary64 not every delay word survives: 201 (12 and 9/16 samples) comes back as 200. *)
Lemma C28_delay_float_refuted_proof : exists w, two_byte_swap w = 201 /\ two_byte_swap (delay_to_ndpd_b64 (ndpd_to_delay_b64 w)) = 200.
Proof. exists (two_byte_swap 201). vm_compute. auto. Qed.
(** Delays beyond the range wrap around silently; negative gains come back as positive. *)
Lemma C28_out_of_range_refuted_proof :
  (exists d, (d == 4097 * (1000000000 / inject_Z fS))%Q /\ (ndpd_to_delay (delay_to_ndpd d) == 1000000000 / inject_Z fS)%Q) /\
  (exists g, (g == -1)%Q /\ (ndpg_to_gain (gain_to_ndpg g) == 32769 # 32767)%Q).
Proof. split; [exists (4097 * (1000000000 / inject_Z fS))%Q|exists (-1)%Q]; vm_compute; auto. Qed.

(** ** C29 *)
(** C29: the result has exactly the given shape and element [idx] is the input element at the
    row-major position of [idx]; sizes that disagree raise ValueError. *)
Lemma C29_flat_to_multi_partial_proof : forall (A : Type) (input : list A) shape, shape <> [] -> Forall (fun d => 1 <= d) shape ->
  (size shape = zlen input ->
    exists t, flat_to_multi input shape = Ok t /\ shaped shape t /\
      forall idx, in_shape shape idx -> get idx t = nth_error input (Z.to_nat (row_major shape idx))) /\
  (size shape <> zlen input -> flat_to_multi input shape = Raise ValueError).
Proof.
  intros A input shape NE HP. split; [apply flat_ok; auto|]. intro H. unfold flat_to_multi. rewrite fold_mul, Z.mul_1_l.
  destruct (Z.eqb_spec (size shape) (zlen input)); [contradiction|reflexivity].
Qed.
Lemma C29_flat_to_multi_example_proof : size [2; 3] = zlen [10; 11; 12; 13; 14; 15] /\ in_shape [2; 3] [1; 2] /\ row_major [2; 3] [1; 2] = 5 /\
  flat_to_multi [10; 11; 12; 13; 14; 15] [2; 3] = Ok (Node [Node [Leaf 10; Leaf 11; Leaf 12]; Node [Leaf 13; Leaf 14; Leaf 15]]).
Proof. cbn [in_shape]. vm_compute. intuition congruence. Qed.
(** A zero dimension raises ValueError although the sizes agree, and negative dimensions are accepted. *)
Lemma C29_dimensions_refuted_proof :
  flat_to_multi (@nil Z) [2; 0] = Raise ValueError /\ flat_to_multi [1; 2; 3; 4; 5; 6] [-2; -3] = Ok (Node []).
Proof. vm_compute. auto. Qed.

(** ** C48 *)
(** C48: the time of a frame is the start of the reference half-year plus the seconds plus the
    offset in the second, if no leap second falls between the day before the epoch and the
    frame. *)
Lemma C48_vdif_time_partial_proof : forall acc e s off u, (forall d, 0 <= leap acc d) -> let d0 := epoch_day e in
  0 <= s -> (0 <= off)%Q ->
  (forall d, d0 - 1 <= d <= day_of (inject_Z (86400 * d0) + inject_Z s + off) -> leap acc d = 0) ->
  (vdif_time acc e s off u <-> (u == inject_Z (86400 * d0) + inject_Z s + off)%Q).
Proof. intros acc e s off u HL d0 Hs Ho HN. apply vdif_time_eq; auto. Qed.
Lemma C48_vdif_time_example_proof : epoch_day 37 = 17713 /\
  (forall d, 17713 - 1 <= d <= day_of (inject_Z (86400 * 17713) + inject_Z 10000000 + (1 # 2)) -> leap acc2016 d = 0).
Proof.
  split; [reflexivity|]. intros d Hd. rewrite acc2016_leap. destruct (Z.eqb_spec d 17166); [lia|reflexivity].
Qed.
(** The number of time samples of a recorded frame, from its header: the recorded values shared among the channels
    (and the parts of complex numbers). *)
Lemma C48_frame_samples_proof : forall r, vdif_ok r ->
  vdif_samples (frame_len r / 8) (b2z (r_legacy r)) (r_bits r) (2 ^ r_lognchan r) (r_complex r) = Ok (zlen (r_levels r) / (parts r * 2 ^ r_lognchan r)).
Proof.
  intros r (_ & _ & _ & _ & N & _ & _ & B & _ & _ & M & _ & _). unfold vdif_samples.
  assert (P : 0 < 2 ^ r_lognchan r) by (apply Z.pow_pos_nonneg; lia). destruct (Z.eqb_spec (2 ^ r_lognchan r) 0); [lia|].
  destruct (Z.eqb_spec (r_bits r) 0) as [E|_]; [rewrite E in B; cbn in B; intuition lia|]. cbn [orb]. f_equal.
  assert (Q : (frame_len r / 8 * 8 - 32 + 16 * b2z (r_legacy r)) / 4 * (32 / r_bits r) = zlen (r_levels r)).
  { unfold frame_len, head_len, payload_len. pose proof (zlen_nonneg (r_levels r)) as Z0. set (c := zlen (r_levels r)) in *. clearbody c. clear - B M Z0.
    destruct B as [B | [B | [B | [B | []]]]]; rewrite <- B in *; clear B; cbn [Z.pow Z.pow_pos Pos.iter Z.mul] in M; destruct (r_legacy r); cbn [b2z];
      [change (32 / 1) with 32|change (32 / 1) with 32|change (32 / 2) with 16|change (32 / 2) with 16|change (32 / 4) with 8|change (32 / 4) with 8|change (32 / 8) with 4|change (32 / 8) with 4];
      Z.to_euclidean_division_equations; lia. }
  rewrite Q. unfold parts. destruct (r_complex r); rewrite ?Z.div_1_r, ?Z.mul_1_l; auto. rewrite Z.div_div by lia. f_equal. lia.
Qed.
Lemma C48_frame_samples_example_proof : let r := mkVrec true false 1 2 3 0 3 5 7 1 false (0, 0, 0, 0) (repeat 0 64) in
  vdif_ok r /\ vdif_samples (frame_len r / 8) 1 1 8 false = Ok 8.
Proof.
  cbv zeta. split; [|vm_compute; reflexivity]. unfold vdif_ok. cbn [r_levels r_bits]. do 7 (split; [vm_compute; intuition congruence|]). split; [cbn; tauto|]. split; [vm_compute; intuition congruence|].
  split; [apply Forall_forall; intros x X; apply repeat_spec in X; subst; vm_compute; intuition congruence|]. vm_compute. intuition congruence.
Qed.
(** Frame [k] of a second with [R] frames of [n] samples starts k/R seconds into it. *)
Lemma C48_frame_offset_proof : forall n R k, 0 < n -> 0 < R -> vdif_offset (inject_Z (n * R)) n k = Ok (inject_Z k / inject_Z R)%Q.
Proof.
  intros n R k N P. unfold vdif_offset. destruct (Z.eqb_spec n 0); [lia|]. assert (E : Qfloor (inject_Z (n * R) / inject_Z n) = R).
  { assert (Q : (inject_Z (n * R) / inject_Z n == inject_Z R)%Q). { rewrite inject_Z_mult. field. intro X. apply n0. unfold Qeq in X. cbn in X. lia. }
    rewrite Q. apply Qfloor_Z. }
  rewrite E. destruct (Z.eqb_spec R 0); [lia|]. reflexivity.
Qed.
Lemma C48_frame_offset_example_proof : vdif_offset 10000000 5000 1999 = Ok (1999 # 2000)%Q.
Proof. vm_compute. reflexivity. Qed.
(** A time written to a frame (half-year, seconds, frame number at [R] frames per second) and read
    back differs by at most half a frame. *)
Lemma C48_write_read_partial_proof : forall acc u R e s k u', (forall d, 0 <= leap acc d) -> 0 < R ->
  set_epoch acc u (inject_Z R) = (e, s, k) ->
  (forall d, epoch_day e - 1 <= d <= day_of (u + 1) -> leap acc d = 0) ->
  (vdif_time acc e s (inject_Z k / inject_Z R) u' -> (Qabs (u' - u) <= (1 # 2) / inject_Z R)%Q) /\
  (exists v, vdif_time acc e s (inject_Z k / inject_Z R) v) /\
  epoch_day e <= day_of u < epoch_day (e + 1) /\ 0 <= k <= R.
Proof.
  intros acc u R e s k u' HN HR HE HL.
  assert (RQ : (0 < inject_Z R)%Q) by (apply (injZ_lt 0 R); auto).
  assert (DU : day_of u <= day_of (u + 1)) by (apply day_mono; lra).
  destruct (set_epoch_ok acc u (inject_Z R) e s k HE ltac:(intros d Hd; apply HL; lia)) as (B & S0 & ST & K).
  set (d0 := epoch_day e) in *. set (t := (u - inject_Z (86400 * d0))%Q) in *.
  pose proof (py_round_spec ((t - inject_Z s) * inject_Z R)) as RS. rewrite <- K in RS. apply Qabs_Qle_condition in RS.
  assert (F0 : (0 <= (t - inject_Z s) * inject_Z R)%Q) by (apply Qmult_le_0_compat; lra).
  assert (F1 : ((t - inject_Z s) * inject_Z R < 1 * inject_Z R)%Q) by (apply Qmult_lt_compat_r; lra).
  assert (KR : 0 <= k <= R).
  { split.
    - assert (-1 < k) by (apply injZ_lt; change (inject_Z (-1)) with (-1)%Q; lra). lia.
    - assert (k < R + 1) by (apply injZ_lt; rewrite inject_Z_plus, inj1; lra). lia. }
  set (off := (inject_Z k / inject_Z R)%Q).
  assert (OE : (off * inject_Z R == inject_Z k)%Q) by (unfold off; field; lra).
  assert (O0 : (0 <= off)%Q) by (unfold off; apply Qle_shift_div_l; auto; rewrite Qmult_0_l; apply (injZ_le 0 k); lia).
  set (h := ((1 # 2) / inject_Z R)%Q). assert (HE2 : (h * inject_Z R == 1 # 2)%Q) by (unfold h; field; lra).
  assert (CL : (- h <= off - (t - inject_Z s) <= h)%Q).
  { split; apply (Qmult_le_r _ _ (inject_Z R) RQ).
    - setoid_replace (- h * inject_Z R)%Q with (- (1 # 2))%Q by (rewrite <- HE2; ring).
      setoid_replace ((off - (t - inject_Z s)) * inject_Z R)%Q with (inject_Z k - (t - inject_Z s) * inject_Z R)%Q by (rewrite <- OE; ring). lra.
    - rewrite HE2. setoid_replace ((off - (t - inject_Z s)) * inject_Z R)%Q with (inject_Z k - (t - inject_Z s) * inject_Z R)%Q by (rewrite <- OE; ring). lra. }
  assert (H2 : (h <= 1 # 2)%Q).
  { unfold h. apply Qle_shift_div_r; auto. assert (1 <= R) by lia. apply injZ_le in H. change (inject_Z 1) with 1%Q in H. lra. }
  assert (W : (inject_Z (86400 * d0) + inject_Z s + off <= u + 1)%Q) by (unfold t in CL; lra).
  assert (V := vdif_time_eq acc HN e s off). fold d0 in V.
  assert (VL : forall d, d0 - 1 <= d <= day_of (inject_Z (86400 * d0) + inject_Z s + off) -> leap acc d = 0).
  { intros d Hd. apply HL. apply day_mono in W. lia. }
  split; [|split; [|split; [exact B|exact KR]]].
  - intro H. apply (V u' S0 O0 VL) in H. apply Qabs_Qle_condition. rewrite H. unfold t in CL. lra.
  - eexists. apply (V _ S0 O0 VL). reflexivity.
Qed.
Lemma C48_write_read_example_proof :
  set_epoch acc2016 (1600000000 + (3 # 10)) 25000 = (41, 6438400, 7500).
Proof. vm_compute. reflexivity. Qed.
(** In the half-year after a leap second every time from the first noon on reads half a second
    late. *)
Lemma C48_half_second_refuted_proof : forall acc e s off u, (forall d, 0 <= leap acc d) -> let d0 := epoch_day e in
  43200 <= s -> (0 <= off)%Q -> leap acc (d0 - 1) = 1 ->
  (forall d, d0 <= d <= day_of (inject_Z (86400 * d0) + inject_Z s + off + (1 # 2)) -> leap acc d = 0) ->
  (vdif_time acc e s off u <-> (u == inject_Z (86400 * d0) + inject_Z s + off + (1 # 2))%Q).
Proof. intros acc e s off u HN d0 Hs Ho HJ HL. apply vdif_time_late; auto. Qed.
Lemma C48_half_second_example_proof : leap acc2016 (epoch_day 34 - 1) = 1 /\
  (forall d, epoch_day 34 <= d <= day_of (inject_Z (86400 * epoch_day 34) + inject_Z 50000 + 0 + (1 # 2)) -> leap acc2016 d = 0).
Proof.
  split; [vm_compute; reflexivity|]. intros d Hd. change (epoch_day 34) with 17167 in Hd. rewrite acc2016_leap. destruct (Z.eqb_spec d 17166); [lia|reflexivity].
Qed.
(** The frame number written can equal the number of frames per second (it should be 0 of the
    next second), and from 2032 on the epoch does not fit its six bits. *)
Lemma C48_header_refuted_proof :
  (exists u e s, set_epoch acc2016 u 10 = (e, s, 10)) /\ (exists u e s k, day_of u = 22645 /\ set_epoch acc2016 u 10 = (e, s, k) /\ e = 64).
Proof.
  split.
  - exists (1600000000 + (99 # 100))%Q, 41, 6438400. vm_compute. reflexivity.
  - exists (inject_Z (22645 * 86400)), 64, 0, 0. vm_compute. auto.
Qed.
