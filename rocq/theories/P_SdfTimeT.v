(** Start times and durations of observations: the theorems. *)
From Coq Require Import Ascii String.
From Coq Require Import List ZArith Bool Lia QArith Qround Qabs Lqa.
From Verif Require Import M_Str P_Str P_Bar M_Sdf M_SdfTime S_SdfTime P_Num P_Flt P_SdfTime P_SdfStart.
Import ListNotations.
Open Scope Z_scope.
Ltac Zify.zify_post_hook ::= Z.div_mod_to_equations.

(** ** Durations *)
(** Setting the duration to the text that reading it gives changes nothing, for every number of milliseconds up to
    more than thirty years. *)
Lemma C56_duration_round_trip_proof : forall dur, 0 <= dur <= 10 ^ 12 -> set_duration (get_duration dur) = inr dur.
Proof. exact get_set_duration. Qed.
Lemma C56_duration_round_trip_example_proof : get_duration 3723004 = tx "1:02:03.004" /\ set_duration (tx "1:02:03.004") = inr 3723004.
Proof. split; vm_compute; reflexivity. Qed.
(** The duration that parse_sdf() makes of the milliseconds in a file is the same number of milliseconds. *)
Lemma C56_parse_sdf_duration_proof : forall dur, 0 <= dur <= 10 ^ 12 -> set_duration (dur_string dur) = inr dur.
Proof. exact dur_string_back. Qed.
Lemma C56_parse_sdf_duration_example_proof : dur_string 7199999 = tx "01:59:59.999".
Proof. vm_compute. reflexivity. Qed.
(** A duration written as [[hours:]minutes:]seconds[.fraction] is taken to the nearest millisecond (up to a 4096th of
    one where that is a close call), for up to 2^30 seconds. *)
Lemma C56_duration_text_proof : forall s total, hms_text s total -> (total <= 1073741824)%Q ->
  exists k, set_duration s = inr k /\ (Qabs (inject_Z k - 1000 * total) <= (1 # 2) + (1 # 4096))%Q.
Proof.
  intros s total T B. destruct (duration_parts s total T) as (th & tm & ts & h & m & q & N1 & N2 & N3 & P1 & P2 & P3 & H & M & Q & V & E). rewrite E.
  destruct (set_duration_spec th tm ts h m q) as (k & K & D); auto. { rewrite <- V. exact B. } exists k. rewrite V. auto.
Qed.
(** And if it is a whole number of milliseconds, exactly that. *)
Lemma C56_duration_exact_proof : forall s total k, hms_text s total -> (total <= 1073741824)%Q -> (1000 * total == inject_Z k)%Q -> set_duration s = inr k.
Proof.
  intros s total k T B X. destruct (duration_parts s total T) as (th & tm & ts & h & m & q & N1 & N2 & N3 & P1 & P2 & P3 & H & M & Q & V & E). rewrite E.
  apply (set_duration_exact th tm ts h m q); auto. { rewrite <- V. exact B. } rewrite <- V. auto.
Qed.
Lemma C56_duration_text_example_proof : hms_text (tx "0:30:00.0625") (28801 # 16)%Q /\ set_duration (tx "0:30:00.0625") = inr 1800062 /\ hms_text (tx "90") 90 /\ set_duration (tx "90") = inr 90000.
Proof.
  assert (D : forall s, forallb is_digit s = true -> all_digits s) by (intros s S; apply all_digits_iff, Forall_forall; apply forallb_forall; exact S).
  split; [|split; [vm_compute; reflexivity|split; [|vm_compute; reflexivity]]].
  - exists (tx "0"), (tx "30"), (tx "00"), (tx "0625"). repeat (split; [apply D; reflexivity|]). split; [discriminate|]. split; [left; repeat split; discriminate|]. reflexivity.
  - exists [], [], (tx "90"), []. repeat (split; [apply D; reflexivity|]). split; [discriminate|]. split; [right; right; repeat split|]. reflexivity.
Qed.
(** A timedelta is taken to the nearest millisecond (microseconds here), a number of seconds too. *)
Lemma C56_duration_timedelta_proof : forall days secs us, 0 <= days <= 10 ^ 6 -> 0 <= secs < 86400 -> 0 <= us < 1000000 ->
  let k := set_duration_timedelta days secs us in 1000 * k - 500 <= (days * 86400 + secs) * 1000000 + us <= 1000 * k + 500.
Proof. intros days secs us D S U. destruct (timedelta_ms days secs us D S U) as (k & E & K). cbv zeta. rewrite E. exact K. Qed.
Lemma C56_duration_number_proof : forall x, (0 <= x)%Q -> (x <= 1073741824)%Q -> (Qabs (inject_Z (set_duration_number x) - 1000 * x) <= (1 # 2) + (1 # 4096))%Q.
Proof. exact number_ms. Qed.
Lemma C56_duration_timedelta_example_proof : set_duration_timedelta 1 1 999700 = 86402000 /\ set_duration_number (fl (1 # 10)) = 100.
Proof. split; vm_compute; reflexivity. Qed.
(** REFUTED: a duration given as an astropy quantity, which the setter has a branch for, is a NameError. *)
Lemma C56_duration_quantity_refuted_proof : forall seconds, set_duration_quantity seconds = inl NameError.
Proof. reflexivity. Qed.

(** ** Start times *)
(** Setting the start to the text that reading it gives changes nothing: every day of the years 1 to 9999, every
    millisecond, in double precision. *)
Lemma C57_start_round_trip_proof : forall named mjd mpm, -678575 <= mjd <= 2973483 -> 0 <= mpm < 86400000 ->
  exists s, get_start mjd mpm = inr s /\ set_start named s = inr (mjd, mpm).
Proof. exact get_set_start. Qed.
Lemma C57_start_round_trip_example_proof : get_start 57753 43200250 = inr (tx "UTC 2016/12/31 12:00:00.250000").
Proof. vm_compute. reflexivity. Qed.
(** PARTIAL (missing: days with a leap second, see the refutation): the start time that parse_sdf() makes of the day
    and millisecond in a file, by way of a floating-point day number, is that day and millisecond, if the conversion of
    the day number to a calendar time is right to one part in 10^10 of a day. *)
Lemma C57_parse_sdf_start_partial_proof : forall named leap e mjd mpm, 0 <= mjd <= 2973483 -> 0 <= mpm < 86400000 -> leap mjd = false -> (Qabs e <= 1 # 10000000000)%Q ->
  exists s, utc_string leap e mjd mpm = inr s /\ set_start named s = inr (mjd, mpm).
Proof. exact utc_back. Qed.
Lemma C57_parse_sdf_start_example_proof : utc_string (fun _ => false) 0 55000 86399999 = inr (tx "UTC 2009 06 18 23:59:59.999").
Proof. vm_compute. reflexivity. Qed.
(** REFUTED on days with a leap second: the fraction of such a day is taken of 86401 seconds, and an observation in
    the middle of it starts half a second late. *)
Lemma C57_parse_sdf_leap_day_refuted_proof : exists leap mjd mpm s, leap mjd = true /\ utc_string leap 0 mjd mpm = inr s /\ forall named, set_start named s = inr (mjd, mpm + 500).
Proof.
  exists (Z.eqb 57753), 57753, 43200000, (tx "UTC 2016 12 31 12:00:00.500"). split; [reflexivity|]. split; [vm_compute; reflexivity|]. intro named. vm_compute. reflexivity.
Qed.

(** PARTIAL (missing: the last half of a millisecond of each second, see the refutation): a time written as
    [UT[C] ]year-month-day hour:minute:second[.fraction], the month by number or name, is read as that day and time, to
    the nearest millisecond. *)
Lemma C57_time_text_partial_proof : forall named t f s, valid_dt t -> time_text t f s ->
  exists k, (Qabs (1000 * fraction f - inject_Z k) <= 1 # 2)%Q /\ 0 <= k <= 1000 /\
    (k < 1000 -> parse_time named s = inr (with_us t (1000 * k)) /\ set_start named s = inr (day_number (dt_y t) (dt_m t) (dt_d t), 1000 * second_of_day t + k)).
Proof.
  intros named t f s V T. destruct (parse_text named t f s [] [] V T (or_introl eq_refl) (or_introl eq_refl)) as (k & A & B & C). exists k. split; [auto|]. split; [auto|]. intro K. cbv zeta in C. rewrite !app_nil_r in C.
  destruct (Z.ltb_spec k 1000); [|lia]. split; [exact C|]. unfold set_start. rewrite C. f_equal. rewrite mjdmpm_parts by (apply valid_with; auto; lia). unfold with_us, second_of_day. cbn [dt_y dt_m dt_d dt_H dt_M dt_S dt_us]. f_equal. rewrite Z.mul_comm, (Z.mul_comm 1000 k), Z.div_mul by lia. lia.
Qed.
Lemma C57_time_text_example_proof : let t := mkDT 2013 1 5 18 2 8 0 in
  valid_dt t /\ time_text t (tx "12") (tx "UT 2013-Jan-5T18:02:08.12") /\ forall named, parse_time named (tx "UT 2013-Jan-5T18:02:08.12") = inr (with_us t 120000).
Proof.
  cbv zeta. split; [repeat split; vm_compute; congruence|]. split; [|intro; vm_compute; reflexivity].
  exists (tx "UT "), 45, 45, (tx "Jan"), (tx "5"), (tx "18"), (tx "02"), (tx "08"), 84. cbn [dt_y dt_m dt_d dt_H dt_M dt_S].
  split; [cbn; tauto|]. do 2 (split; [lia|]). split; [auto|]. split; [right; repeat constructor; cbn; lia|]. split; [right; split; [lia|reflexivity]|]. do 3 (split; [left; split; [lia|reflexivity]|]).
  split; [apply all_digits_iff; repeat constructor|]. split; [cbn; lia|]. reflexivity.
Qed.
(** REFUTED for the last half millisecond of a second: the fraction is rounded up to a whole second, which datetime()
    refuses.  So for texts as for datetime objects. *)
Lemma C57_last_half_millisecond_refuted_proof : forall named t f s, valid_dt t -> time_text t f s -> (9995 # 10000 < fraction f)%Q -> parse_time named s = inl ValueError.
Proof.
  intros named t f s V T F. destruct (parse_text named t f s [] [] V T (or_introl eq_refl) (or_introl eq_refl)) as (k & A & B & C). cbv zeta in C. rewrite !app_nil_r in C. rewrite C. apply Qabs_Qle_condition in A.
  assert (999 < k). { apply injZ_lt. change (inject_Z 999) with 999%Q. lra. } destruct (Z.ltb_spec k 1000); [lia|]. reflexivity.
Qed.
Lemma C57_last_half_millisecond_refuted_example_proof : forall named, parse_time named (tx "2013/01/01 18:00:00.9996") = inl ValueError.
Proof. intro named. vm_compute. reflexivity. Qed.
Lemma C57_last_half_millisecond_datetime_refuted_proof : forall t, valid_dt t -> 999500 < dt_us t -> parse_time_datetime t = inl ValueError.
Proof.
  intros t V U. unfold parse_time_datetime. destruct (ms_near (dt_us t)) as (k & E & K); [destruct V as (_ & _ & _ & _ & _ & V); exact V|]. rewrite E. apply make_dt_us. lia.
Qed.
(** PARTIAL (missing: that last half millisecond): a datetime in UTC is taken to the nearest millisecond. *)
Lemma C57_datetime_partial_proof : forall t, valid_dt t -> dt_us t < 999500 -> exists k, parse_time_datetime t = inr (with_us t (1000 * k)) /\ 1000 * k - 500 <= dt_us t <= 1000 * k + 500.
Proof.
  intros t V U. unfold parse_time_datetime. assert (B : 0 <= dt_us t < 1000000) by (destruct V as (_ & _ & _ & _ & _ & V); exact V). destruct (ms_near (dt_us t) B) as (k & E & K). rewrite E. exists k. split; auto. rewrite Z.mul_comm.
  assert (W : valid_dt (with_us t (1000 * k))) by (apply valid_with; auto; lia). exact (make_dt_ok _ W).
Qed.
Lemma C57_datetime_example_proof : valid_dt (mkDT 2013 1 1 18 0 0 123456) /\ parse_time_datetime (mkDT 2013 1 1 18 0 0 123456) = inr (mkDT 2013 1 1 18 0 0 123000).
Proof. split; [repeat split; vm_compute; congruence|vm_compute; reflexivity]. Qed.
(** A time with an offset from UTC of two-digit hours and minutes is read as the instant that many seconds earlier,
    to the nearest millisecond; outside the years 1 to 9999 it is an OverflowError. *)
Lemma C57_offset_text_proof : forall named t f s o r, valid_dt t -> time_text t f s -> offset_text o r ->
  exists k, (Qabs (1000 * fraction f - inject_Z k) <= 1 # 2)%Q /\ 0 <= k <= 1000 /\
    (k < 1000 -> (exists t', parse_time named (s ++ r) = inr t' /\ valid_dt t' /\ instant t' = instant (with_us t (1000 * k)) - o * 1000000) \/
                 (parse_time named (s ++ r) = inl OverflowError /\ ~ exists t', valid_dt t' /\ instant t' = instant (with_us t (1000 * k)) - o * 1000000)).
Proof.
  intros named t f s o r V T (h & m & blank & colon & H & M & O).
  assert (R : exists sgn, (sgn = 43 \/ sgn = 45) /\ r = (if blank then [32] else []) ++ (sgn :: pad 2 h ++ (if colon then [58] else []) ++ pad 2 m) /\ o = (h * 3600 + m * 60) * (if sgn =? 45 then -1 else 1)).
  { destruct O as [[-> ->]|[-> ->]]; [exists 43|exists 45]; (split; [auto|]); (split; [reflexivity|]); cbn [Z.eqb Pos.eqb]; lia. }
  destruct R as (sgn & S & -> & ->). destruct (offset_read h m colon sgn H M S) as [A B]. set (x := sgn :: pad 2 h ++ (if colon then [58] else []) ++ pad 2 m) in *. set (o := (h * 3600 + m * 60) * _) in *. clear O.
  destruct (parse_text named t f s (if blank then [32] else []) x V T) as (k & K1 & K2 & K3); [destruct blank; auto|auto|]. exists k. split; [auto|]. split; [auto|]. intro K. cbv zeta in K3. rewrite K3. destruct (Z.ltb_spec k 1000); [|lia]. unfold x at 1 3. rewrite B.
  assert (W : valid_dt (with_us t (1000 * k))) by (apply valid_with; auto; lia). rewrite shift_dt_ok by auto. cbv zeta. set (I := instant (with_us t (1000 * k)) - o * 1000000). destruct (in_years I) eqn:Y; [left|right].
  - exists (dt_of I). split; [reflexivity|]. apply dt_of_ok. auto.
  - split; [reflexivity|]. intros (t' & V' & E). destruct (instant_parts t' V') as [_ Y']. rewrite E in Y'. congruence.
Qed.
Lemma C57_offset_text_example_proof : offset_text (-25200) (tx " -07:00") /\ forall named, parse_time named (tx "2013/01/01 18:00:00 -07:00") = inr (mkDT 2013 1 2 1 0 0 0).
Proof.
  split; [|intro; vm_compute; reflexivity]. exists 7, 0, true, true. split; [lia|]. split; [lia|]. right. split; reflexivity.
Qed.
(** REFUTED for hours of one digit, which the syntax allows: +1:30 is taken for thirteen hours, +5:30 and +05 are
    ValueErrors. *)
Lemma C57_offset_one_digit_refuted_proof : forall named,
  parse_time named (tx "2013/01/01 18:00:00 +1:30") = inr (mkDT 2013 1 1 5 0 0 0) /\
  parse_time named (tx "2013/01/01 18:00:00 +5:30") = inl ValueError /\ parse_time named (tx "2013/01/01 18:00:00 +05") = inl ValueError.
Proof. intro named. repeat split; vm_compute; reflexivity. Qed.

(** ** The order of observations *)
(** Observations are sorted by a floating-point day number; that is the order of their start times, to the millisecond. *)
Lemma C54_sort_order_proof : forall d1 p1 d2 p2, 0 <= d1 <= 2973483 -> 0 <= p1 < 86400000 -> 0 <= d2 <= 2973483 -> 0 <= p2 < 86400000 ->
  (start_key d1 p1 < start_key d2 p2)%Q <-> d1 * 86400000 + p1 < d2 * 86400000 + p2.
Proof. exact start_key_order. Qed.
Lemma C54_sort_order_example_proof : (start_key 60000 43199999 < start_key 60000 43200000)%Q.
Proof. vm_compute. reflexivity. Qed.
