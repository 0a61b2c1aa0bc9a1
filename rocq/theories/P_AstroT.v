(** Final forms of the astronomy helper properties (C40-C42, C50-C52). *)
From Coq Require Import ZArith QArith Qround Qabs Bool Lqa Lia SpecFloat.
From Verif Require Import M_Astro S_Astro P_Num P_Time P_Cal P_Astro.
Open Scope Z_scope.
Ltac Zify.zify_post_hook ::= Z.div_mod_to_equations.

(** ** C40 *)
(** C40: for every angle the fields are in range, the sign is that of the angle, and the fields
    mean exactly the angle; converting back gives the angle. *)
Lemma C40_dms_proof : forall deg, let x := deg_to_dms deg in
  (dms_neg x = true <-> (deg < 0)%Q) /\ 0 <= dms_d x /\ 0 <= dms_m x < 60 /\ (0 <= dms_s x < 60)%Q /\
  (sexagesimal (dms_neg x) (dms_d x) (dms_m x) (dms_s x) == deg)%Q /\ (dms_to_deg x == deg)%Q.
Proof.
  intros deg x. pose proof (dms_round deg) as R. unfold x in *. unfold deg_to_dms in *. destruct (float_to_sexa deg) as [[[n d] m] s] eqn:E.
  apply sexa_sum in E. destruct E as (A & B & C & D & _). cbn [dms_neg dms_d dms_m dms_s] in *. split; [auto|]. split; [auto|]. split; [auto|]. split; [auto|]. split; [|auto].
  rewrite <- R. unfold sexagesimal, dms_to_deg. cbn [dms_neg dms_d dms_m dms_s]. destruct n; qlra.
Qed.
Lemma C40_dms_example_proof : let x := deg_to_dms (- (4351 # 100))%Q in dms_neg x = true /\ dms_d x = 43 /\ dms_m x = 30 /\ (dms_s x == 36)%Q.
Proof. repeat split. Qed.
(** C40: fields in range are recovered, to the last digit of the seconds, from the angle they mean
    (a negative zero is not an angle). *)
Lemma C40_dms_fields_proof : forall n d m s, 0 <= d -> 0 <= m < 60 -> (0 <= s < 60)%Q ->
  (n = true -> ~ (sexagesimal n d m s == 0)%Q) ->
  exists s', deg_to_dms (dms_to_deg (mkDms n d m s)) = mkDms n d m s' /\ (s' == s)%Q.
Proof.
  intros n d m s Hd Hm Hs Hn. apply dms_make; auto. intros ->. specialize (Hn eq_refl). unfold sexagesimal in Hn.
  assert (0 <= inject_Z d)%Q by (apply (injZ_le 0); auto). assert (0 <= inject_Z m)%Q by (apply (injZ_le 0); lia).
  destruct (Qlt_le_dec 0 (inject_Z d + inject_Z m / 60 + s / 3600)) as [L|L]; [exact L|]. exfalso. apply Hn. qlra.
Qed.
Lemma C40_dms_fields_example_proof : (0 <= 59999 # 1000 < 60)%Q /\ ~ (sexagesimal true 12 59 (59999 # 1000) == 0)%Q /\
  dms_neg (deg_to_dms (dms_to_deg (mkDms true 12 59 (59999 # 1000)))) = true.
Proof. split; [lra|]. split; [discriminate|reflexivity]. Qed.
(** C40: angles in [0, 360) convert to hours in range and back; hour angles in range convert to
    degrees and back. *)
Lemma C40_hms_partial_proof :
  (forall deg, (0 <= deg < 360)%Q -> exists x, deg_to_hms deg = Ok x /\
     0 <= hms_h x < 24 /\ 0 <= hms_m x < 60 /\ (0 <= hms_s x < 60)%Q /\
     (sexagesimal false (hms_h x) (hms_m x) (hms_s x) * 15 == deg)%Q /\ (hms_to_deg x == deg)%Q) /\
  (forall h m s, 0 <= h < 24 -> 0 <= m < 60 -> (0 <= s < 60)%Q ->
     exists s', deg_to_hms (hms_to_deg (mkHms h m s)) = Ok (mkHms h m s') /\ (s' == s)%Q).
Proof.
  split.
  - intros deg H. destruct (proj1 (deg_to_hms_spec deg)) as (x & A & (B & C & D) & E); [rewrite Qabs_pos; lra|].
    exists x. split; [auto|]. split; [auto|]. split; [auto|]. split; [auto|].
    assert (E2 : (hms_to_deg x == deg)%Q) by (rewrite E, Qabs_pos; lra). split; [|exact E2].
    rewrite <- E2. unfold hms_to_deg, sexagesimal. qlra.
  - intros h m s H M S. destruct (hms_make (mkHms h m s) (hms_to_deg (mkHms h m s))) as (s' & A & B); [repeat split; cbn; try lia; lra|reflexivity|].
    exists s'. split; [exact A|exact B].
Qed.
Lemma C40_hms_example_proof : match deg_to_hms (35999 # 100) with Ok x => hms_h x = 23 /\ hms_m x = 59 /\ (hms_s x == 576 # 10)%Q | _ => False end.
Proof. vm_compute. repeat split. Qed.
(** C40, finding: outside [0, 360) the angle is not kept.  A negative angle comes back with the
    sign dropped, and from one turn up it is an error. *)
Lemma C40_hms_refuted_proof :
  (forall deg, (- (360) < deg < 0)%Q -> exists x, deg_to_hms deg = Ok x /\ (hms_to_deg x == - deg)%Q) /\
  (forall deg, (360 <= deg)%Q -> deg_to_hms deg = Raise ValueError).
Proof.
  split; intros deg H.
  - destruct (proj1 (deg_to_hms_spec deg)) as (x & A & _ & E); [rewrite Qabs_neg; lra|]. exists x. split; [auto|]. rewrite E, Qabs_neg; lra.
  - apply deg_to_hms_spec. rewrite Qabs_pos; lra.
Qed.
Lemma C40_hms_refuted_example_proof : (- (360) < - (15) < 0)%Q /\ match deg_to_hms (- (15)) with Ok x => (hms_to_deg x == 15)%Q | _ => False end.
Proof. split; [lra|reflexivity]. Qed.
(** C40: adding seconds to an hour angle is exact while the result stays within the day, and an
    error from 24 h up. *)
Lemma C40_add_seconds_proof : forall h m s t, 0 <= h < 24 -> 0 <= m < 60 -> (0 <= s < 60)%Q ->
  let total := (inject_Z h * 3600 + inject_Z m * 60 + s + t)%Q in
  ((0 <= total < 86400)%Q -> exists x, add_secs_hms (mkHms h m s) t = Ok x /\ hms_ok x /\ (hms_to_sec x == total)%Q) /\
  ((86400 <= total)%Q -> add_secs_hms (mkHms h m s) t = Raise ValueError).
Proof.
  intros h m s t Hh Hm Hs total. unfold add_secs_hms. set (v := (hms_to_deg (mkHms h m s) + t / 3600 * 15)%Q).
  assert (E : (v == total / 240)%Q) by (unfold v, total, hms_to_deg; cbn [hms_h hms_m hms_s]; field).
  assert (T : (v * 240 == total)%Q) by (rewrite E; field). destruct (deg_to_hms_spec v) as [A B]. split; intro H.
  - assert (V0 : (0 <= v)%Q) by lra. rewrite (Qabs_pos v V0) in A. destruct A as (x & A1 & A2 & A3); [lra|].
    exists x. split; [auto|]. split; [auto|]. unfold hms_to_deg in A3. unfold hms_to_sec. rewrite (Qabs_pos v V0) in A3. rewrite <- T, <- A3. field.
  - assert (V0 : (0 <= v)%Q) by lra. rewrite (Qabs_pos v V0) in B. apply B. lra.
Qed.
Lemma C40_add_seconds_example_proof : match add_secs_hms (mkHms 1 59 59) 2 with Ok x => hms_h x = 2 /\ hms_m x = 0 /\ (hms_s x == 1)%Q | _ => False end.
Proof. vm_compute. repeat split. Qed.
(** C40, finding: adding two hour angles never changes the hours: the sum is wrong
    exactly when it has other hours than the destination. *)
Lemma C40_add_hms_refuted_proof :
  (forall a b x, add_hms a b = Ok x -> hms_h x = hms_h b) /\
  (exists x, add_hms (mkHms 1 0 0) (mkHms 1 0 0) = Ok x /\ (hms_to_sec x == 3600)%Q).
Proof.
  split.
  - intros a b x. unfold add_hms. destruct (deg_to_hms _); cbn [bind]; intro H; inversion H; subst. reflexivity.
  - eexists. split; reflexivity.
Qed.
(** What remains true: minutes and seconds of the sum are right when the hours fit. *)
Lemma C40_add_hms_partial_proof : forall a b, hms_ok a -> hms_ok b -> (hms_to_sec a + hms_to_sec b < 86400)%Q ->
  exists x k, add_hms a b = Ok x /\ hms_ok x /\ (hms_to_sec x == hms_to_sec a + hms_to_sec b + 3600 * inject_Z k)%Q.
Proof.
  intros a b A B H. unfold add_hms. set (v := (hms_to_deg a + hms_to_deg b)%Q).
  assert (T : (v * 240 == hms_to_sec a + hms_to_sec b)%Q) by (unfold v, hms_to_sec, hms_to_deg; field).
  assert (PA : (0 <= hms_to_sec a)%Q /\ (0 <= hms_to_sec b)%Q).
  { destruct A as (A1 & A2 & A3), B as (B1 & B2 & B3). unfold hms_to_sec.
    assert (0 <= inject_Z (hms_h a))%Q by (apply (injZ_le 0); lia). assert (0 <= inject_Z (hms_m a))%Q by (apply (injZ_le 0); lia).
    assert (0 <= inject_Z (hms_h b))%Q by (apply (injZ_le 0); lia). assert (0 <= inject_Z (hms_m b))%Q by (apply (injZ_le 0); lia). split; lra. }
  assert (V0 : (0 <= v)%Q) by lra. destruct (proj1 (deg_to_hms_spec v)) as (x & X1 & X2 & X3); [rewrite Qabs_pos; lra|].
  rewrite X1. cbn [bind]. exists (mkHms (hms_h b) (hms_m x) (hms_s x)), (hms_h b - hms_h x). split; [reflexivity|].
  split; [destruct X2 as (_ & X2), B as (B & _); split; cbn; auto|].
  rewrite Qabs_pos in X3 by auto. unfold hms_to_sec at 1. cbn [hms_h hms_m hms_s]. rewrite <- T, <- X3, inject_Z_minus. unfold hms_to_deg. field.
Qed.
Lemma C40_add_hms_example_proof : match add_hms (mkHms 0 40 10) (mkHms 3 30 20) with Ok x => hms_h x = 3 /\ hms_m x = 10 /\ (hms_s x == 30)%Q | _ => False end.
Proof. vm_compute. repeat split. Qed.
(** C40, finding: in binary64 the fields can be a whole minute wrong.  The float nearest
    4.35 degrees (4 d 21 m 0 s) gives 4 d 21 m and more than 59.9999 s. *)
Lemma C40_float_refuted_proof :
  let v := S754_finite false 4897664594765414 (-50) in
  (Qabs (b64_q v - (435 # 100)) < 1 # 1000000000000000)%Q /\
  let '(d, m, s) := float_to_sexa_b64 v in d = 4 /\ m = 21 /\ (599999 # 10000 < s)%Q.
Proof. split; [vm_compute; reflexivity|]. vm_compute. repeat split. Qed.

(** ** C41 *)
(** C41: range_degrees gives the one value in [0, 360) a whole number of turns away. *)
Lemma C41_range_degrees_proof : forall deg, (0 <= range_degrees deg < 360)%Q /\ exists k, (deg == range_degrees deg + 360 * inject_Z k)%Q.
Proof. intro deg. split; [apply qmod_range; lra|apply qmod_turns; lra]. Qed.
Lemma C41_range_degrees_example_proof : (range_degrees (- (3601 # 10)) == 3599 # 10)%Q /\ (range_degrees 360 == 0)%Q.
Proof. split; reflexivity. Qed.
(** C41: range_hours gives a value in the documented range 0 to 24, a whole number of days away;
    24 is returned (in place of 0) exactly for negative whole days. *)
Lemma C41_range_hours_proof : forall h, (0 <= range_hours h <= 24)%Q /\ (exists k, (range_hours h == h + 24 * inject_Z k)%Q) /\
  ((range_hours h == 24)%Q <-> exists n, n < 0 /\ (h == 24 * inject_Z n)%Q).
Proof. exact range_hours_spec. Qed.
Lemma C41_range_hours_example_proof : (range_hours (- (1 # 2)) == 47 # 2)%Q /\ (range_hours 24 == 0)%Q /\ (range_hours (- (24)) == 24)%Q.
Proof. repeat split. Qed.
(** C41: the compass letter (0 N, 1 E, 2 S, 3 W) depends only on the direction and is the one whose
    quarter, centred on 90 degrees times the letter, contains it. *)
Lemma C41_compass_proof : forall az, 0 <= hrz_to_nswe az < 4 /\
  exists k, (- (45) <= az - 90 * inject_Z (hrz_to_nswe az) - 360 * inject_Z k < 45)%Q.
Proof.
  intro az. unfold hrz_to_nswe. pose proof (qmod_range az 360 ltac:(lra)) as R. destruct (qmod_turns az 360 ltac:(lra)) as [k K].
  set (a := qmod az 360) in *. destruct (qlt_bool a 45) eqn:E1; cbn [orb].
  - apply qlt_bool_t in E1. split; [lia|]. exists k. change (inject_Z 0) with 0%Q. lra.
  - apply qlt_bool_f in E1. destruct (Qle_bool 315 a) eqn:E2; cbn [orb].
    + apply Qle_bool_t in E2. split; [lia|]. exists (k + 1). rewrite inject_Z_plus. change (inject_Z 0) with 0%Q. change (inject_Z 1) with 1%Q. lra.
    + apply Qle_bool_f in E2. destruct (Qle_bool 45 a) eqn:E3; [apply Qle_bool_t in E3|apply Qle_bool_f in E3; lra]. cbn [andb].
      destruct (qlt_bool a 135) eqn:E4; [apply qlt_bool_t in E4|apply qlt_bool_f in E4].
      * split; [lia|]. exists k. change (inject_Z 1) with 1%Q. lra.
      * destruct (Qle_bool 135 a) eqn:E5; [apply Qle_bool_t in E5|apply Qle_bool_f in E5; lra]. cbn [andb].
        destruct (qlt_bool a 225) eqn:E6; [apply qlt_bool_t in E6|apply qlt_bool_f in E6]; (split; [lia|]); exists k;
          [change (inject_Z 2) with 2%Q|change (inject_Z 3) with 3%Q]; lra.
Qed.
Lemma C41_compass_example_proof : hrz_to_nswe 314 = 3 /\ hrz_to_nswe 315 = 0 /\ hrz_to_nswe (- (80)) = 3 /\ hrz_to_nswe 500 = 2.
Proof. repeat split. Qed.

(** ** C42 *)
(** C42: there is one weekday for each date, it is the civil weekday, and it is what is returned
    at every time of that date from one microsecond after midnight.  Missing: midnight itself. *)
Lemma C42_weekday_partial_proof : exists w, is_weekday w /\
  forall y m d h mi s, valid_date y m d -> 0 <= h < 24 -> 0 <= mi < 60 -> (0 <= s < 60)%Q ->
    ~ (h = 0 /\ mi = 0 /\ (s < 1 # 1000000)%Q) ->
    day_of_week (get_julian_day y m d h mi s) = w y m d.
Proof.
  exists (fun y m d => (date_to_mjd y m d + 3) mod 7). split.
  - split; [reflexivity|]. split; [intros; apply Z.mod_pos_bound; lia|]. intros y m d V. pose proof (next_day_mjd y m d V) as N. destruct (next_day y m d) as [[y' m'] d'].
    destruct N as [_ N]. rewrite !date_to_mjd_z. rewrite N. lia.
  - intros y m d h mi s V H M S NM. destruct (jd_in_day y m d h mi s H M S) as (f & F1 & F2 & F3 & _).
    assert (f0 : ~ (f == 0)%Q) by (intro X; apply F3 in X; auto).
    apply dow_mid. lra.
Qed.
Lemma C42_weekday_example_proof : day_of_week (get_julian_day 2000 1 1 12 0 0) = 6 /\ day_of_week (get_julian_day 2024 2 29 23 59 (59999 # 1000)) = 4 /\
  day_of_week (get_julian_day 1858 11 17 0 0 (1 # 1000)) = 3.
Proof. repeat split. Qed.
(** C42, finding: at exactly midnight every second day (even modified Julian days) gives the
    weekday of the day before. *)
Lemma C42_midnight_refuted_proof : forall y m d, valid_date y m d ->
  day_of_week (get_julian_day y m d 0 0 0) =
    (day_of_week (get_julian_day y m d 12 0 0) - (if Z.even (date_to_mjd y m d) then 1 else 0)) mod 7.
Proof.
  intros y m d V.
  destruct (jd_in_day y m d 0 0 0 ltac:(lia) ltac:(lia) ltac:(lra)) as (f & F1 & F2 & F3 & _).
  destruct (jd_in_day y m d 12 0 0 ltac:(lia) ltac:(lia) ltac:(lra)) as (g & G1 & G2 & G3 & _).
  assert (g0 : ~ (g == 0)%Q) by (intro X; apply G3 in X; lia).
  rewrite (dow_mid (date_to_mjd y m d) (get_julian_day y m d 12 0 0)) by lra.
  assert (F : (f == 0)%Q) by (apply F3; repeat split; lra).
  assert (E : (get_julian_day y m d 0 0 0 == inject_Z (date_to_mjd y m d) + (4800001 # 2))%Q) by (rewrite F2, F; ring).
  assert (DC : forall a b, (a == b)%Q -> day_of_week a = day_of_week b).
  { intros a b X. unfold day_of_week, py_round. rewrite !(Qfloor_comp _ _ X).
    assert (Y : forall c, Qle_bool (1 # 2) (a - c) = Qle_bool (1 # 2) (b - c)) by (intro c; rewrite X; reflexivity).
    assert (Y' : forall c, Qle_bool (a - c) (1 # 2) = Qle_bool (b - c) (1 # 2)) by (intro c; rewrite X; reflexivity). rewrite Y, Y'. reflexivity. }
  rewrite (DC _ _ E). set (D := date_to_mjd y m d) in *.
  destruct (Z.even D) eqn:EV.
  - rewrite dow_midnight; [lia|]. apply Z.even_spec in EV. destruct EV as [q Q]. lia.
  - rewrite dow_midnight_odd; [lia|]. assert (O : Z.odd D = true) by (rewrite <- Z.negb_even, EV; reflexivity). apply Z.odd_spec in O. destruct O as [q Q]. lia.
Qed.
Lemma C42_midnight_example_proof : valid_date 2000 1 1 /\ day_of_week (get_julian_day 2000 1 1 0 0 0) = 5 /\ day_of_week (get_julian_day 2000 1 2 0 0 0) = 0.
Proof. repeat split; cbn; lia. Qed.

(** ** C50 *)
(** C50: a calendar date goes to the local date [gmtoff] seconds away and back to itself, when the
    fraction of its seconds is below 0.9995. *)
Lemma C50_zone_partial_proof : forall c off, cdate_ok c -> (frac_sec c < 9995 # 10000)%Q ->
  let z := date_to_zonedate c off in let back := zonedate_to_date z in
  cdate_ok (fst z) /\ snd z = off /\ (instant (fst z) == instant c + inject_Z off)%Q /\
  cd_y back = cd_y c /\ cd_mo back = cd_mo c /\ cd_d back = cd_d c /\ cd_h back = cd_h c /\ cd_mi back = cd_mi c /\ (cd_s back == cd_s c)%Q.
Proof.
  intros c off HC HF z back. destruct (zone_there c off HC HF) as (A & B & C & D). fold z in A, B, C, D.
  split; [auto|]. split; [auto|]. split; [auto|].
  destruct (zone_back z A) as (E & F); [rewrite D; auto|]. fold back in E, F.
  apply instant_inj; auto. rewrite F, C, B. ring.
Qed.
Lemma C50_zone_example_proof : let c := mkDate 2000 1 1 3 30 (301 # 10) in cdate_ok c /\ (frac_sec c < 9995 # 10000)%Q /\
  cd_y (fst (date_to_zonedate c (-25200))) = 1999 /\ cd_d (fst (date_to_zonedate c (-25200))) = 31 /\ cd_h (fst (date_to_zonedate c (-25200))) = 20.
Proof. split; [repeat split; cbn; discriminate|]. repeat split. Qed.
(** C50, finding: with a larger fraction the printed seconds round up, so each conversion is one
    second late. *)
Lemma C50_zone_refuted_proof : forall c off, cdate_ok c -> (9995 # 10000 < frac_sec c)%Q ->
  (instant (fst (date_to_zonedate c off)) == instant c + inject_Z off + 1)%Q.
Proof.
  intros c off HC HF. unfold date_to_zonedate. cbn [fst]. destruct (gmtime_spec (timegm c + off) (frac_sec c) (frac_range c HC)) as (_ & B & _).
  rewrite B, inject_Z_plus. pose proof (timegm_late c HC HF). lra.
Qed.
Lemma C50_zone_refuted_example_proof : let c := mkDate 2000 1 1 0 0 (5999996 # 100000) in cdate_ok c /\ (9995 # 10000 < frac_sec c)%Q.
Proof. split; [repeat split; cbn; discriminate|reflexivity]. Qed.

(** ** C51 *)
(** C51: Julian and modified Julian days convert to each other and back, and are refused exactly
    before 17 November 1858. *)
Lemma C51_mjd_proof : forall x,
  (forall y, mjd_to_jd x = Ok y -> exists x', jd_to_mjd y = Ok x' /\ (x' == x)%Q) /\
  (forall y, jd_to_mjd x = Ok y -> exists x', mjd_to_jd y = Ok x' /\ (x' == x)%Q) /\
  (mjd_to_jd x = Raise ValueError <-> (x < 0)%Q) /\ (jd_to_mjd x = Raise ValueError <-> (x < inject_Z (date_to_mjd 1858 11 17) + (4800001 # 2))%Q).
Proof.
  change (inject_Z (date_to_mjd 1858 11 17)) with 0%Q. intro x. unfold mjd_to_jd, jd_to_mjd. split; [|split; [|split]].
  - intro y. qlt; [discriminate|]. intro H; inversion H; subst. qlt; [lra|]. eexists. split; [reflexivity|ring].
  - intro y. qlt; [discriminate|]. intro H; inversion H; subst. qlt; [lra|]. eexists. split; [reflexivity|ring].
  - qlt; split; intro; auto; [discriminate|lra].
  - qlt; split; intro; try discriminate; auto; lra.
Qed.
Lemma C51_mjd_example_proof : match mjd_to_jd (51544 + (1 # 2))%Q with Ok j => (j == 2451545)%Q | _ => False end /\ jd_to_mjd 2400000 = Raise ValueError.
Proof. split; reflexivity. Qed.
(** C51: seconds and Julian-day fractions are inverse to each other. *)
Lemma C51_seconds_proof : forall x, (jd_to_sec (sec_to_jd x) == x)%Q /\ (sec_to_jd (jd_to_sec x) == x)%Q /\ (sec_to_jd 86400 == 1)%Q.
Proof. intro x. unfold jd_to_sec, sec_to_jd. split; [field|]. split; [field|reflexivity]. Qed.
(** C51: the Julian day of a calendar time is noon-based, is the count of days, and grows with the
    time of day within a microsecond. *)
Lemma C51_calendar_proof : forall y m d h mi s, valid_date y m d -> 0 <= h < 24 -> 0 <= mi < 60 -> (0 <= s < 60)%Q ->
  let exact := (get_julian_day y m d 0 0 0 + (inject_Z (h * 3600 + mi * 60) + s) * (1 # 86400))%Q in
  (exact - (1 # 86400000000) < get_julian_day y m d h mi s <= exact)%Q /\
  let '(y', m', d') := next_day y m d in (get_julian_day y' m' d' 0 0 0 == get_julian_day y m d 0 0 0 + 1)%Q.
Proof.
  intros y m d h mi s V H M S exact.
  assert (Z0 : forall y m d, (get_julian_day y m d 0 0 0 == inject_Z (date_to_mjd y m d) + (4800001 # 2))%Q).
  { intros a b c. destruct (jd_in_day a b c 0 0 0 ltac:(lia) ltac:(lia) ltac:(lra)) as (f & F1 & F2 & F3 & _).
    assert (F : (f == 0)%Q) by (apply F3; repeat split; lra). rewrite F2, F. ring. }
  split.
  - destruct (jd_in_day y m d h mi s H M S) as (f & F1 & F2 & F3 & F4). unfold exact. rewrite Z0, F2. lra.
  - pose proof (next_day_mjd y m d V) as N. destruct (next_day y m d) as [[y' m'] d']. destruct N as [_ N].
    rewrite !Z0, !date_to_mjd_z, N, inject_Z_plus. change (inject_Z 1) with 1%Q. ring.
Qed.
Lemma C51_calendar_example_proof : (get_julian_day 2000 1 1 12 0 0 == 2451545)%Q.
Proof. reflexivity. Qed.

(** ** C52 *)
(** C52: on a day that does not end in a leap second the result is TAI-UTC, for any floating
    point error below 0.04 s. *)
Lemma C52_leap_seconds_partial_proof : forall acc e u, (Qabs e < 4 # 100)%Q -> (63072000 <= u)%Q -> leap acc (day_of u) = 0 ->
  exists r, leap_secs acc e u = Ok r /\ (r == inject_Z (acc (day_of u)))%Q.
Proof. exact leap_secs_ok. Qed.
(** C52: before 1972 the call is refused. *)
Lemma C52_before_1972_proof : forall acc e u, (u < 63072000)%Q -> leap_secs acc e u = Raise ValueError.
Proof. intros acc e u H. unfold leap_secs. qlt; [reflexivity|lra]. Qed.
(** C52, finding: at noon of a day that ends in a leap second half a second is added. *)
Lemma C52_leap_day_refuted_proof : forall acc d, leap acc d = 1 -> 730 <= d ->
  exists r, leap_secs acc 0 (inject_Z (86400 * d + 43200)) = Ok r /\ (r == inject_Z (acc d) + (1 # 2))%Q.
Proof. exact leap_secs_noon. Qed.
Lemma C52_example_proof : let acc := fun d => if d <=? 17166 then 36 else 37 in
  leap acc 17166 = 1 /\ leap acc 17167 = 0 /\ match leap_secs acc 0 (inject_Z (86400 * 17167)) with Ok r => (r == 37)%Q | _ => False end.
Proof. repeat split. Qed.
