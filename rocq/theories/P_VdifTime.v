From Coq Require Import ZArith QArith Qround Qabs Bool Lqa Lia.
From Verif Require Export M_VdifTime P_Time P_Cal.
Open Scope Z_scope.

Lemma tai_inj : forall acc, (forall d, 0 <= leap acc d) -> forall u v, (tai acc u == tai acc v)%Q -> (u == v)%Q.
Proof.
  intros acc HL u v H. destruct (Q_dec u v) as [[L|L]|L]; auto; apply (tai_lt acc HL) in L; lra.
Qed.
Lemma day_of_midnight : forall d, day_of (inject_Z (86400 * d)) = d.
Proof.
  intro d. apply floor_eq.
  - apply Qle_shift_div_l; [reflexivity|]. rewrite inject_Z_mult. change (inject_Z 86400) with 86400%Q. lra.
  - apply Qlt_shift_div_r; [reflexivity|]. rewrite inject_Z_mult. change (inject_Z 86400) with 86400%Q. lra.
Qed.
Lemma jd_int_bounds : forall u, day_of u - 1 <= jd_int u <= day_of u.
Proof.
  intro u. unfold jd_int, day_of. destruct (floor_spec (u / 86400)) as [A B]. destruct (floor_spec (u / 86400 - (1 # 2))) as [C D].
  set (a := Qfloor (u / 86400)) in *. set (b := Qfloor (u / 86400 - (1 # 2))) in *. split.
  - assert (a - 1 < b + 1) by (apply injZ_lt; rewrite inject_Z_minus, inject_Z_plus, inj1; lra). lia.
  - assert (b < a + 1) by (apply injZ_lt; rewrite inject_Z_plus, inj1; lra). lia.
Qed.
Lemma jd_int_pm : forall d x, (43200 <= x)%Q -> d <= jd_int (inject_Z (86400 * d) + x).
Proof.
  intros d x H. unfold jd_int.
  rewrite <- (Qfloor_Z d) at 1. apply Qfloor_resp_le.
  assert (E : ((inject_Z (86400 * d) + x) / 86400 == inject_Z d + x * (1 # 86400))%Q).
  { rewrite inject_Z_mult. change (inject_Z 86400) with 86400%Q. field. }
  rewrite E. lra.
Qed.

Section Utc.
Context (acc : Z -> Z) (leap_nonneg : forall d, 0 <= leap acc d).
Let D0 e := epoch_day e.
Lemma tai_from : forall d x y, (0 <= x <= y)%Q ->
  (forall k, d <= k <= day_of (inject_Z (86400 * d) + y) -> leap acc k = 0) ->
  (tai acc (inject_Z (86400 * d) + x) == tai acc (inject_Z (86400 * d)) + x)%Q.
Proof.
  intros d x y H HL. pose proof (tai_diff acc (inject_Z (86400 * d) + x) (inject_Z (86400 * d)) (inject_Z (86400 * d)) (inject_Z (86400 * d) + y)
    ltac:(lra) ltac:(lra)) as T. rewrite day_of_midnight in T. specialize (T HL). lra.
Qed.
Lemma ls_const : forall a b, a <= b -> (forall k, a <= k <= b -> leap acc k = 0) -> (leap_secs acc a == leap_secs acc b)%Q.
Proof.
  intros a b H HL. unfold leap_secs. rewrite !HL by lia. rewrite (acc_const acc a b) by (auto; intros; apply HL; lia). reflexivity.
Qed.
Lemma vdif_time_eq : forall e s off u, let d0 := epoch_day e in 0 <= s -> (0 <= off)%Q ->
  (forall d, d0 - 1 <= d <= day_of (inject_Z (86400 * d0) + inject_Z s + off) -> leap acc d = 0) ->
  (vdif_time acc e s off u <-> (u == inject_Z (86400 * d0) + inject_Z s + off)%Q).
Proof.
  intros e s off u d0 Hs Ho HL. set (w := (inject_Z (86400 * d0) + inject_Z s)%Q) in *.
  assert (SQ : (0 <= inject_Z s)%Q) by (apply (injZ_le 0 s); auto).
  assert (E0 : (w + off == inject_Z (86400 * d0) + (inject_Z s + off))%Q) by (unfold w; ring).
  assert (HL2 : forall k, d0 <= k <= day_of (inject_Z (86400 * d0) + (inject_Z s + off)) -> leap acc k = 0).
  { intros k Hk. apply HL. rewrite E0. lia. }
  assert (T1 : (tai acc w == tai acc (inject_Z (86400 * d0)) + inject_Z s)%Q).
  { unfold w. apply (tai_from d0 (inject_Z s) (inject_Z s + off)); [lra|exact HL2]. }
  assert (T2 : (tai acc (w + off) == tai acc w + off)%Q).
  { rewrite E0, (tai_from d0 (inject_Z s + off) (inject_Z s + off)), T1; [ring|lra|exact HL2]. }
  assert (DW : day_of w <= day_of (w + off)) by (apply day_mono; lra).
  assert (DW0 : d0 <= day_of w) by (rewrite <- (day_of_midnight d0); apply day_mono; unfold w; lra).
  assert (LS : (leap_secs acc (d0 - 1) == leap_secs acc (jd_int w))%Q).
  { pose proof (jd_int_bounds w). apply ls_const; [lia|]. intros k Hk. apply HL. lia. }
  split.
  - intros (v & V1 & V2). fold d0 in V1, V2.
    assert (VW : (v == w)%Q) by (apply (tai_inj acc leap_nonneg); rewrite V1, T1; reflexivity).
    assert (JV : jd_int v = jd_int w) by (unfold jd_int; apply Qfloor_comp; rewrite VW; reflexivity).
    apply (tai_inj acc leap_nonneg). rewrite V2, T2, JV, LS, VW. ring.
  - intro U. exists w. fold d0. split; [exact T1|]. rewrite U, T2, LS. ring.
Qed.
(** After a leap second on the day before the epoch, from noon on. *)
Lemma vdif_time_late : forall e s off u, let d0 := epoch_day e in 43200 <= s -> (0 <= off)%Q -> leap acc (d0 - 1) = 1 ->
  (forall d, d0 <= d <= day_of (inject_Z (86400 * d0) + inject_Z s + off + (1 # 2)) -> leap acc d = 0) ->
  (vdif_time acc e s off u <-> (u == inject_Z (86400 * d0) + inject_Z s + off + (1 # 2))%Q).
Proof.
  intros e s off u d0 Hs Ho HJ HL. set (w := (inject_Z (86400 * d0) + inject_Z s)%Q) in *.
  assert (SQ : (43200 <= inject_Z s)%Q) by (apply (injZ_le 43200 s); auto).
  assert (E0 : (w + off + (1 # 2) == inject_Z (86400 * d0) + (inject_Z s + off + (1 # 2)))%Q) by (unfold w; ring).
  assert (HL2 : forall k, d0 <= k <= day_of (inject_Z (86400 * d0) + (inject_Z s + off + (1 # 2))) -> leap acc k = 0).
  { intros k Hk. apply HL. rewrite E0. lia. }
  assert (T1 : (tai acc w == tai acc (inject_Z (86400 * d0)) + inject_Z s)%Q).
  { unfold w. apply (tai_from d0 (inject_Z s) (inject_Z s + off + (1 # 2))); [lra|exact HL2]. }
  assert (T2 : (tai acc (w + off + (1 # 2)) == tai acc w + off + (1 # 2))%Q).
  { rewrite E0, (tai_from d0 (inject_Z s + off + (1 # 2)) (inject_Z s + off + (1 # 2))), T1; [ring|lra|exact HL2]. }
  assert (DW : day_of w <= day_of (w + off + (1 # 2))) by (apply day_mono; lra).
  assert (JW : d0 <= jd_int w) by (unfold w; apply jd_int_pm; auto).
  assert (LS : (leap_secs acc (d0 - 1) == leap_secs acc (jd_int w) - (1 # 2))%Q).
  { pose proof (jd_int_bounds w). rewrite <- (ls_const d0 (jd_int w) JW) by (intros k Hk; apply HL; lia).
    unfold leap_secs. rewrite HJ. rewrite (HL d0) by lia. unfold leap in HJ. replace (d0 - 1 + 1) with d0 in HJ by lia.
    replace (acc d0) with (acc (d0 - 1) + 1) by lia. rewrite inject_Z_plus. change (inject_Z 1) with 1%Q. change (inject_Z 0) with 0%Q. ring. }
  split.
  - intros (v & V1 & V2). fold d0 in V1, V2.
    assert (VW : (v == w)%Q) by (apply (tai_inj acc leap_nonneg); rewrite V1, T1; reflexivity).
    assert (JV : jd_int v = jd_int w) by (unfold jd_int; apply Qfloor_comp; rewrite VW; reflexivity).
    apply (tai_inj acc leap_nonneg). rewrite V2, T2, JV, LS, VW. ring.
  - intro U. exists w. fold d0. split; [exact T1|]. rewrite U, T2, LS. ring.
Qed.
End Utc.

(** The writer's epoch is the half-year that contains the time. *)
Lemma half_year : forall y m d, valid_date y m d ->
  let e := 2 * (y - 2000) + (if 6 <? m then 1 else 0) in
  epoch_day e = date_to_mjd y ((m / 7) * 6 + 1) 1 - 40587 /\
  epoch_day e <= mjdz y m d - 40587 < epoch_day (e + 1).
Proof.
  intros y m d V e.
  assert (Hm : 1 <= m <= 12) by apply V. pose proof (doy_range _ _ _ V) as R.
  assert (S7 : m / 7 = if 6 <? m then 1 else 0).
  { clear e. symmetry. destruct (6 <? m) eqn:E; [apply (Z.div_unique _ _ 1 (m - 7))|apply (Z.div_unique _ _ 0 m)]; lia. }
  assert (E2 : 2000 + e / 2 = y) by (unfold e; destruct (6 <? m); [replace (2 * (y - 2000) + 1) with (1 + (y - 2000) * 2) by ring; rewrite Z.div_add by lia; change (1 / 2) with 0; lia|rewrite Z.add_0_r, Z.mul_comm, Z.div_mul; lia]).
  assert (EM : e mod 2 = if 6 <? m then 1 else 0) by (unfold e; destruct (6 <? m); [replace (2 * (y - 2000) + 1) with (1 + (y - 2000) * 2) by ring; rewrite Z.mod_add by lia; reflexivity|rewrite Z.add_0_r, Z.mul_comm; apply Z.mod_mul; lia]).
  assert (F : epoch_day e = date_to_mjd y ((m / 7) * 6 + 1) 1 - 40587) by (unfold epoch_day; rewrite E2, EM, S7; reflexivity).
  split; [exact F|]. rewrite F, S7.
  assert (N2 : 2000 + (e + 1) / 2 = if 6 <? m then y + 1 else y).
  { unfold e. destruct (6 <? m); [replace (2 * (y - 2000) + 1 + 1) with ((y - 2000 + 1) * 2) by ring; rewrite Z.div_mul by lia; lia|].
    replace (2 * (y - 2000) + 0 + 1) with (1 + (y - 2000) * 2) by ring. rewrite Z.div_add by lia. change (1 / 2) with 0. lia. }
  assert (NM : (e + 1) mod 2 = if 6 <? m then 0 else 1).
  { unfold e. destruct (6 <? m); [replace (2 * (y - 2000) + 1 + 1) with ((y - 2000 + 1) * 2) by ring; apply Z.mod_mul; lia|].
    replace (2 * (y - 2000) + 0 + 1) with (1 + (y - 2000) * 2) by ring. rewrite Z.mod_add by lia. reflexivity. }
  unfold epoch_day. rewrite N2, NM, !date_to_mjd_z.
  destruct V as [_ Hd]. rewrite days_in_lp in Hd. pose proof (lp_range y) as LR.
  change (1 * 6 + 1) with 7. change (0 * 6 + 1) with 1. destruct (6 <? m) eqn:E6.
  - change (1 * 6 + 1) with 7. change (0 * 6 + 1) with 1. rewrite !mjdz_doy by lia. rewrite dby_step. fold (lp y). unfold doy in *. months m Hm; calc; try discriminate; lia.
  - change (1 * 6 + 1) with 7. change (0 * 6 + 1) with 1. rewrite !mjdz_doy by lia. unfold doy in *. months m Hm; calc; try discriminate; lia.
Qed.

Lemma set_epoch_ok : forall acc u rate e s k, set_epoch acc u rate = (e, s, k) ->
  (forall d, epoch_day e <= d <= day_of u -> leap acc d = 0) ->
  epoch_day e <= day_of u < epoch_day (e + 1) /\
  let t := (u - inject_Z (86400 * epoch_day e))%Q in
  0 <= s /\ (inject_Z s <= t < inject_Z s + 1)%Q /\ k = py_round ((t - inject_Z s) * rate).
Proof.
  intros acc u rate e s k. unfold set_epoch. pose proof (ord2ymd_ok (day_of u + 719163)) as O.
  destruct (ord2ymd (day_of u + 719163)) as [[y m] d]. destruct O as [V E].
  assert (HY := half_year y m d V). cbv zeta in HY. destruct HY as [F B]. rewrite E in B.
  replace (day_of u + 719163 - 678576 - 40587) with (day_of u) in B by lia.
  intros H HL. apply pair_equal_spec in H. destruct H as [H K]. apply pair_equal_spec in H. destruct H as [H S].
  rewrite H in *. rewrite <- F in *. clear F. split; [exact B|].
  set (d0 := epoch_day e) in *. set (t := (u - inject_Z (86400 * d0))%Q).
  assert (U0 : (inject_Z (86400 * d0) <= u)%Q).
  { pose proof (floor_spec (u / 86400)) as [A _]. fold (day_of u) in A. destruct B as [B _]. apply injZ_le in B.
    assert (X : (u == (u / 86400) * 86400)%Q) by field. rewrite X, inject_Z_mult. change (inject_Z 86400) with 86400%Q.
    set (q := (u / 86400)%Q) in *. lra. }
  assert (T : (tai acc u - tai acc (inject_Z (86400 * d0)) == t)%Q).
  { unfold t. apply (tai_diff acc u (inject_Z (86400 * d0)) (inject_Z (86400 * d0)) u); [lra|lra|].
    rewrite day_of_midnight. exact HL. }
  assert (P : (0 <= t)%Q) by (unfold t; lra).
  assert (S' : s = py_int t) by (rewrite <- S; apply py_int_compat; exact T).
  pose proof (py_int_pos_spec t P) as PS. rewrite <- S' in PS.
  split; [|split].
  - assert (-1 < s) by (apply injZ_lt; change (inject_Z (-1)) with (-1)%Q; lra). lia.
  - exact PS.
  - rewrite <- K, S. apply py_round_compat. rewrite T. reflexivity.
Qed.
