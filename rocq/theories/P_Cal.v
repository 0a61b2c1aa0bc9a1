From Coq Require Import ZArith QArith Qround Qabs Bool Lqa Lia.
From Verif Require Export M_Cal P_Num.
From Verif Require Import P_Time.
Open Scope Z_scope.
Ltac Zify.zify_post_hook ::= Z.div_mod_to_equations.

Definition mjdz (year month day : Z) : Z :=
  let a := (14 - month) / 12 in let y := year + 4800 - a in let m := month + 12 * a - 3 in
  day + (153 * m + 2) / 5 + 365 * y + y / 4 - y / 100 + y / 400 - 32045 - 2400001.
Lemma floor_half : forall n, Qfloor (inject_Z n - (4800001 # 2))%Q = n - 2400001.
Proof. intro n. apply floor_eq; rewrite inject_Z_minus; change (inject_Z 2400001) with 2400001%Q; lra. Qed.
Lemma date_to_mjd_z : forall y m d, date_to_mjd y m d = mjdz y m d.
Proof. intros. unfold date_to_mjd, mjdz. cbv zeta. rewrite floor_half. lia. Qed.

(** The number of days before a year, for whole years. *)
Definition dby (y : Z) : Z := 365 * (y - 1) + (y - 1) / 4 - (y - 1) / 100 + (y - 1) / 400.
Lemma dby_step : forall y, dby (y + 1) = dby y + 365 + (if leap_year y then 1 else 0).
Proof.
  intro y. unfold dby, leap_year. replace (y + 1 - 1) with y by lia.
  destruct (Z.eqb_spec (y mod 4) 0), (Z.eqb_spec (y mod 100) 0), (Z.eqb_spec (y mod 400) 0); cbn [andb orb negb]; lia.
Qed.
(** mjd in terms of whole years and months *)
Lemma mjdz_year : forall y m d, 1 <= m <= 12 ->
  mjdz y m d = dby y + dbm m + (if (2 <? m) && leap_year y then 1 else 0) + d - 678576.
Proof.
  intros y m d Hm. assert (S := dby_step y). unfold mjdz.
  assert (M : m = 1 \/ m = 2 \/ m = 3 \/ m = 4 \/ m = 5 \/ m = 6 \/ m = 7 \/ m = 8 \/ m = 9 \/ m = 10 \/ m = 11 \/ m = 12) by lia.
  assert (E1 : forall z, (z + 4800) / 4 - (z + 4800) / 100 + (z + 4800) / 400 = z / 4 - z / 100 + z / 400 + 1164) by (intro z; lia).
  set (L := if leap_year y then 1 else 0) in *.
  assert (E2 : dby (y + 1) = 365 * y + y / 4 - y / 100 + y / 400) by (unfold dby; replace (y + 1 - 1) with y by lia; reflexivity).
  assert (E3 : dby y = 365 * (y - 1) + (y - 1) / 4 - (y - 1) / 100 + (y - 1) / 400) by reflexivity.
  repeat (destruct M as [->|M]); try subst m; cbn [dbm Z.leb Z.eqb Z.ltb Z.compare Pos.compare Pos.compare_cont Pos.eqb andb];
    unfold L in *; clear L;
    match goal with |- context [(14 - ?k) / 12] => let v := eval vm_compute in ((14 - k) / 12) in change ((14 - k) / 12) with v end;
    match goal with |- context [(153 * ?t + 2) / 5] => let v := eval vm_compute in ((153 * t + 2) / 5) in change ((153 * t + 2) / 5) with v end;
    first [ specialize (E1 y); replace (y + 4800 - 0) with (y + 4800) by lia; clear Hm; revert S E1 E2 E3;
            generalize (dby y) (dby (y + 1)) ((y + 4800) / 4) ((y + 4800) / 100) ((y + 4800) / 400); intros; destruct (leap_year y); lia
          | specialize (E1 (y - 1)); replace (y + 4800 - 1) with (y - 1 + 4800) by lia; clear Hm S E2; revert E1 E3;
            generalize (dby y) ((y - 1 + 4800) / 4) ((y - 1 + 4800) / 100) ((y - 1 + 4800) / 400); intros; lia ].
Qed.

Definition lp (y : Z) : Z := if leap_year y then 1 else 0.
Lemma lp_range : forall y, 0 <= lp y <= 1. Proof. intro y. unfold lp. destruct (leap_year y); lia. Qed.
(** day of the year *)
Definition doy (y m d : Z) : Z := dbm m + (if 2 <? m then lp y else 0) + d.
Lemma mjdz_doy : forall y m d, 1 <= m <= 12 -> mjdz y m d = dby y + doy y m d - 678576.
Proof. intros y m d H. rewrite mjdz_year by auto. unfold doy, lp. destruct (2 <? m), (leap_year y); cbn [andb]; lia. Qed.
Ltac months m H := assert (M : m = 1 \/ m = 2 \/ m = 3 \/ m = 4 \/ m = 5 \/ m = 6 \/ m = 7 \/ m = 8 \/ m = 9 \/ m = 10 \/ m = 11 \/ m = 12) by (clear - H; lia);
  repeat (destruct M as [->|M]); try subst m.
Ltac calc := cbn [dbm Z.leb Z.eqb Z.ltb Z.compare Pos.compare Pos.compare_cont Pos.eqb andb orb] in *.
Lemma days_in_lp : forall y m, days_in y m = if m =? 2 then 28 + lp y else if (m =? 4) || (m =? 6) || (m =? 9) || (m =? 11) then 30 else 31.
Proof. intros. unfold days_in, lp. destruct (m =? 2), (leap_year y); reflexivity. Qed.
Lemma doy_range : forall y m d, valid_date y m d -> 1 <= doy y m d <= 365 + lp y.
Proof.
  intros y m d [H1 H2]. rewrite days_in_lp in H2. unfold doy. pose proof (lp_range y). months m H1; calc; lia.
Qed.
Lemma doy_inj : forall y m d m' d', valid_date y m d -> valid_date y m' d' -> doy y m d = doy y m' d' -> m = m' /\ d = d'.
Proof.
  intros y m d m' d' [H1 H2] [H3 H4] E. rewrite days_in_lp in H2, H4. unfold doy in E. pose proof (lp_range y) as LR.
  set (l := lp y) in *. clearbody l.
  months m H1; months m' H3; calc; (clear H1 H3 || idtac); lia.
Qed.
Lemma dby_lt : forall a b, a < b -> dby (a + 1) <= dby b.
Proof.
  intros a b H. remember (Z.to_nat (b - a - 1)) as n eqn:E. revert a H E. induction n as [|n IH]; intros a H E.
  - replace b with (a + 1) by lia. lia.
  - specialize (IH (a + 1) ltac:(lia) ltac:(lia)). rewrite dby_step in IH. fold (lp (a + 1)) in IH. pose proof (lp_range (a + 1)). lia.
Qed.
Lemma mjdz_inj : forall y m d y' m' d', valid_date y m d -> valid_date y' m' d' -> mjdz y m d = mjdz y' m' d' -> (y, m, d) = (y', m', d').
Proof.
  intros y m d y' m' d' V V' E. rewrite !mjdz_doy in E by (apply V || apply V').
  pose proof (doy_range _ _ _ V) as R. pose proof (doy_range _ _ _ V') as R'.
  assert (y = y').
  { destruct (Z.lt_trichotomy y y') as [L|[L|L]]; auto; apply dby_lt in L; rewrite dby_step in L;
      [fold (lp y) in L|fold (lp y') in L]; lia. }
  subst y'. destruct (doy_inj y m d m' d' V V' ltac:(lia)) as [-> ->]. reflexivity.
Qed.
Lemma next_day_mjd : forall y m d, valid_date y m d ->
  let '(y', m', d') := next_day y m d in valid_date y' m' d' /\ mjdz y' m' d' = mjdz y m d + 1.
Proof.
  intros y m d V. unfold next_day. destruct V as [H1 H2]. destruct (d <? days_in y m) eqn:E.
  - split; [split; lia|]. rewrite !mjdz_doy by auto. unfold doy. lia.
  - assert (D : d = days_in y m) by lia. destruct (m <? 12) eqn:E2.
    + split. { split; [lia|]. rewrite days_in_lp. pose proof (lp_range y). clear - H. repeat match goal with |- context [if ?b then _ else _] => destruct b end; lia. }
      rewrite !mjdz_doy by lia. rewrite D, days_in_lp. unfold doy. clear - H1 E2.
      remember (m + 1) as m1 eqn:E1. months m H1; vm_compute in E1; subst m1; calc; try discriminate E2; lia.
    + assert (m = 12) by lia. subst m. split; [split; [lia|unfold days_in; calc; lia]|].
      rewrite !mjdz_doy by lia. rewrite dby_step, D. fold (lp y). unfold doy, days_in. calc. lia.
Qed.

Lemma ord2ymd_ok : forall n, let '(y, m, d) := ord2ymd n in valid_date y m d /\ mjdz y m d = n - 678576.
Proof.
  intro n. unfold ord2ymd. set (k := n - 1).
  set (n400 := k / 146097). set (k1 := k mod 146097). set (n100 := k1 / 36524). set (k2 := k1 mod 36524).
  set (n4 := k2 / 1461). set (k3 := k2 mod 1461). set (n1 := k3 / 365). set (k4 := k3 mod 365).
  assert (B1 : k = 146097 * n400 + k1 /\ 0 <= k1 < 146097) by (unfold k1, n400; lia).
  assert (B2 : k1 = 36524 * n100 + k2 /\ 0 <= k2 < 36524) by (unfold k2, n100; lia).
  assert (B3 : k2 = 1461 * n4 + k3 /\ 0 <= k3 < 1461) by (unfold k3, n4; lia).
  assert (B4 : k3 = 365 * n1 + k4 /\ 0 <= k4 < 365) by (unfold k4, n1; lia).
  assert (N : n = k + 1) by (unfold k; lia). clearbody n400 k1 n100 k2 n4 k3 n1 k4 k. subst n.
  destruct B1 as [B1 C1], B2 as [B2 C2], B3 as [B3 C3], B4 as [B4 C4].
  assert (0 <= n100 <= 4) by lia. assert (0 <= n4 <= 24) by lia. assert (0 <= n1 <= 4) by lia.
  set (base := n400 * 400 + 1 + n100 * 100 + n4 * 4).
  (* days before the first year of the 4-year group *)
  assert (DB : forall j, 0 <= j <= 3 -> n100 <= 3 -> dby (base + j) = 146097 * n400 + 36524 * n100 + 1461 * n4 + 365 * j).
  { intros j Hj H3. unfold dby, base. clear - Hj H3 H H0. lia. }
  assert (LP : forall j, 0 <= j <= 3 -> n100 <= 3 -> leap_year (base + j) = (j =? 3) && (negb (n4 =? 24) || (n100 =? 3))).
  { intros j Hj H3. unfold leap_year, base. clear - Hj H3 H H0.
    assert (E4 : (n400 * 400 + 1 + n100 * 100 + n4 * 4 + j) mod 4 = (1 + j) mod 4) by lia.
    assert (E100 : (n400 * 400 + 1 + n100 * 100 + n4 * 4 + j) mod 100 = (1 + n4 * 4 + j) mod 100) by lia.
    assert (E400 : (n400 * 400 + 1 + n100 * 100 + n4 * 4 + j) mod 400 = (1 + n100 * 100 + n4 * 4 + j) mod 400) by lia.
    rewrite E4, E100, E400.
    destruct (Z.eqb_spec j 3), (Z.eqb_spec n4 24), (Z.eqb_spec n100 3), (Z.eqb_spec ((1 + j) mod 4) 0),
      (Z.eqb_spec ((1 + n4 * 4 + j) mod 100) 0), (Z.eqb_spec ((1 + n100 * 100 + n4 * 4 + j) mod 400) 0); cbn [andb orb negb]; try reflexivity; lia. }
  destruct ((n1 =? 4) || (n100 =? 4)) eqn:E.
  - (* 31 December of a leap year *)
    assert (Y : exists l, base + n1 - 1 = l /\ leap_year l = true /\ dby l + 366 = k + 1 ).
    { destruct (Z.eq_dec n100 4) as [E4|E4].
      - assert (k2 = 0 /\ n4 = 0 /\ n1 = 0) as (-> & -> & ->) by lia.
        exists (n400 * 400 + 400). unfold base. split; [lia|]. split.
        + unfold leap_year. clear. replace ((n400 * 400 + 400) mod 4) with 0 by lia. replace ((n400 * 400 + 400) mod 400) with 0 by lia.
          cbn. rewrite orb_true_r. reflexivity.
        + unfold dby. clear - B1 B2 E4 B3 C3. lia.
      - assert (n1 = 4 /\ k3 = 1460) as [-> E3] by lia. exists (base + 3). split; [lia|]. split.
        + rewrite LP by lia. destruct (Z.eqb_spec n4 24), (Z.eqb_spec n100 3); try reflexivity. exfalso. clear - e n B3 C2 E3 B2 C1. lia.
        + rewrite DB by lia. clear - B1 B2 B3 E3. lia. }
    destruct Y as (l & -> & L & D). split; [split; [lia|cbn; lia]|]. rewrite mjdz_doy by lia. unfold doy, lp. rewrite L. calc. lia.
  - apply orb_false_iff in E. destruct E as [E1 E2]. assert (n1 <= 3) by lia. assert (n100 <= 3) by lia.
    specialize (DB n1 ltac:(lia) ltac:(lia)). specialize (LP n1 ltac:(lia) ltac:(lia)). rewrite <- LP.
    assert (V : forall m d, 1 <= m <= 12 -> 1 <= d <= days_in (base + n1) m -> doy (base + n1) m d = k4 + 1 ->
               valid_date (base + n1) m d /\ mjdz (base + n1) m d = k + 1 - 678576).
    { intros m d Hm Hd E. split; [split; auto|]. rewrite mjdz_doy, DB, E by auto. lia. }
    clear DB LP. set (year := base + n1) in *. clearbody year. clear - C4 V.
    assert (MR : 1 <= (k4 + 50) / 32 <= 12) by lia. set (m := (k4 + 50) / 32) in *.
    assert (MB : 32 * m <= k4 + 50 < 32 * m + 32) by (unfold m; lia). clearbody m.
    replace (if (2 <? m) && leap_year year then 1 else 0) with (if 2 <? m then lp year else 0) by (unfold lp; destruct (2 <? m), (leap_year year); reflexivity).
    pose proof (lp_range year) as LR.
    destruct (k4 <? dbm m + (if 2 <? m then lp year else 0)) eqn:E.
    + replace (if (m - 1 =? 2) && leap_year year then 1 else 0) with (if m - 1 =? 2 then lp year else 0) by (unfold lp; destruct (m - 1 =? 2), (leap_year year); reflexivity).
      assert (M2 : 2 <= m). { destruct (Z.eq_dec m 1) as [->|]; [|lia]. calc. lia. }
      apply V; [lia| |].
      * rewrite days_in_lp. clear V. remember (m - 1) as m1 eqn:E1. months m MR; vm_compute in E1; subst m1; calc; lia.
      * unfold doy. clear V. remember (m - 1) as m1 eqn:E1. months m MR; vm_compute in E1; subst m1; calc; lia.
    + apply V; [lia| |unfold doy; lia]. rewrite days_in_lp. clear V. months m MR; calc; lia.
Qed.

Lemma unix_us : forall e mjd mpm, (Qabs e < 1 # 2000000)%Q ->
  py_round ((inject_Z mjd * 86400 + inject_Z mpm / 1000 - 3506716800 + e) * 1000000) = ((mjd - 40587) * 86400000 + mpm) * 1000.
Proof.
  intros e mjd mpm H. apply py_round_near. apply Qabs_Qlt_condition in H. apply Qabs_Qlt_condition.
  rewrite inject_Z_mult, inject_Z_plus, inject_Z_mult, inject_Z_minus.
  change (inject_Z 40587) with 40587%Q. change (inject_Z 86400000) with 86400000%Q. change (inject_Z 1000) with 1000%Q.
  assert (E : (inject_Z mpm / 1000 == (1 # 1000) * inject_Z mpm)%Q) by (field). rewrite E. lra.
Qed.
Lemma to_datetime_eq : forall e mjd mpm, (Qabs e < 1 # 2000000)%Q -> 0 <= mpm < 86400000 ->
  mjdmpm_to_datetime e mjd mpm =
  let '(y, m, d) := ord2ymd (mjd + 678576) in
  if (1 <=? y) && (y <=? 9999) then Ok (mkDT y m d (mpm / 3600000) (mpm / 60000 mod 60) (mpm / 1000 mod 60) (mpm mod 1000 * 1000))
  else Raise ValueError.
Proof.
  intros e mjd mpm He Hm. unfold mjdmpm_to_datetime, fromtimestamp. rewrite unix_us by auto.
  set (D := mjd - 40587). assert (ED : mjd + 678576 = D + 719163) by (unfold D; lia). rewrite ED. clearbody D. clear ED mjd He e.
  assert (A1 : (D * 86400000 + mpm) * 1000 / 1000000 = D * 86400 + mpm / 1000) by lia.
  assert (A2 : (D * 86400 + mpm / 1000) / 86400 = D) by lia.
  assert (A3 : (D * 86400 + mpm / 1000) mod 86400 = mpm / 1000) by lia.
  assert (A4 : ((D * 86400000 + mpm) * 1000) mod 1000000 = mpm mod 1000 * 1000) by lia.
  rewrite A1, A2, A3, A4. destruct (ord2ymd (D + 719163)) as [[y m] d].
  replace (mpm / 1000 / 3600) with (mpm / 3600000) by lia. replace (mpm / 1000 / 60) with (mpm / 60000) by lia. reflexivity.
Qed.
Lemma mpm_eq : forall H M S us, 0 <= us < 1000000 ->
  Qfloor (inject_Z ((H * 3600 + M * 60 + S) * 1000) + inject_Z us / 1000)%Q = (H * 3600 + M * 60 + S) * 1000 + us / 1000.
Proof.
  intros H M S us Hu. set (k := (H * 3600 + M * 60 + S) * 1000). apply floor_eq.
  - rewrite inject_Z_plus. pose proof (floor_spec (inject_Z us / inject_Z 1000)) as [F _]. rewrite floor_div in F by lia.
    change (inject_Z 1000) with 1000%Q in F. lra.
  - rewrite inject_Z_plus. pose proof (floor_spec (inject_Z us / inject_Z 1000)) as [_ F]. rewrite floor_div in F by lia.
    change (inject_Z 1000) with 1000%Q in F. lra.
Qed.
Lemma year_range : forall y m d, valid_date y m d -> -678575 <= mjdz y m d <= 2973483 <-> 1 <= y <= 9999.
Proof.
  intros y m d V. pose proof (doy_range _ _ _ V) as R. destruct V as [H1 H2]. rewrite mjdz_doy by auto.
  pose proof (dby_step y) as DS. fold (lp y) in DS. pose proof (lp_range y).
  assert (D1 : dby 1 = 0) by reflexivity. assert (D2 : dby 10000 = 3652059) by reflexivity.
  split; intro B.
  - split.
    + destruct (Z.lt_ge_cases y 1) as [L|]; [|lia]. apply dby_lt in L. lia.
    + destruct (Z.lt_ge_cases 9999 y) as [L|]; [|lia]. apply dby_lt in L. change (9999 + 1) with 10000 in L. lia.
  - assert (D3 : dby 2 = 365) by reflexivity.
    assert (L1 : dby 1 <= dby y).
    { destruct (Z.eq_dec y 1) as [->|]; [reflexivity|]. pose proof (dby_lt 1 y ltac:(lia)) as L. change (1 + 1) with 2 in L. lia. }
    assert (L2 : dby (y + 1) <= dby 10000) by (apply dby_lt; lia). lia.
Qed.
Lemma cal_there_back : forall e mjd mpm, (Qabs e < 1 # 2000000)%Q -> 0 <= mpm < 86400000 -> -678575 <= mjd <= 2973483 ->
  exists t, mjdmpm_to_datetime e mjd mpm = Ok t /\ valid_dt t /\ datetime_to_mjdmpm t = (mjd, mpm).
Proof.
  intros e mjd mpm He Hm Hd. rewrite to_datetime_eq by auto. pose proof (ord2ymd_ok (mjd + 678576)) as O.
  destruct (ord2ymd (mjd + 678576)) as [[y m] d]. destruct O as [V E]. replace (mjd + 678576 - 678576) with mjd in E by lia.
  assert (Y : 1 <= y <= 9999) by (apply (year_range y m d V); lia).
  destruct ((1 <=? y) && (y <=? 9999)) eqn:B; [|lia].
  eexists. split; [reflexivity|]. split.
  - unfold valid_dt. cbn [dt_y dt_m dt_d dt_H dt_M dt_S dt_us]. clear - Y V Hm. repeat split; try (apply V); lia.
  - unfold datetime_to_mjdmpm. cbn [dt_y dt_m dt_d dt_H dt_M dt_S dt_us]. rewrite date_to_mjd_z, E.
    rewrite mpm_eq by (clear - Hm; lia). apply pair_equal_spec. split; [reflexivity|]. clear - Hm. lia.
Qed.
Lemma cal_back_there : forall e t, (Qabs e < 1 # 2000000)%Q -> valid_dt t ->
  mjdmpm_to_datetime e (fst (datetime_to_mjdmpm t)) (snd (datetime_to_mjdmpm t)) =
  Ok (mkDT (dt_y t) (dt_m t) (dt_d t) (dt_H t) (dt_M t) (dt_S t) (dt_us t - dt_us t mod 1000)).
Proof.
  intros e [y m d H M S us] He (Y & V & HH & HM & HS & HU). cbn [dt_y dt_m dt_d dt_H dt_M dt_S dt_us] in *.
  unfold datetime_to_mjdmpm. cbn [dt_y dt_m dt_d dt_H dt_M dt_S dt_us fst snd]. rewrite mpm_eq, date_to_mjd_z by auto.
  set (mpm := (H * 3600 + M * 60 + S) * 1000 + us / 1000).
  assert (Hm : 0 <= mpm < 86400000) by (unfold mpm; lia). rewrite to_datetime_eq by auto.
  pose proof (ord2ymd_ok (mjdz y m d + 678576)) as O. destruct (ord2ymd (mjdz y m d + 678576)) as [[y' m'] d']. destruct O as [V' E].
  replace (mjdz y m d + 678576 - 678576) with (mjdz y m d) in E by lia. apply mjdz_inj in E; auto.
  apply pair_equal_spec in E. destruct E as [E ->]. apply pair_equal_spec in E. destruct E as [-> ->].
  destruct ((1 <=? y) && (y <=? 9999)) eqn:B; [|lia].
  assert (E1 : mpm / 3600000 = H) by (unfold mpm; clear - HH HM HS HU; lia).
  assert (E2 : mpm / 60000 mod 60 = M) by (unfold mpm; clear - HH HM HS HU; lia).
  assert (E3 : mpm / 1000 mod 60 = S) by (unfold mpm; clear - HH HM HS HU; lia).
  assert (E4 : mpm mod 1000 * 1000 = us - us mod 1000) by (unfold mpm; clear - HH HM HS HU; lia).
  rewrite E1, E2, E3, E4. reflexivity.
Qed.
