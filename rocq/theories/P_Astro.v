From Coq Require Import ZArith QArith Qround Qabs Bool Lqa Lia.
From Verif Require Import M_Astro P_Num P_Time P_Cal.
Open Scope Z_scope.
Ltac Zify.zify_post_hook ::= Z.div_mod_to_equations.

(** [lra] does not divide by literals. *)
Ltac qlra := unfold Qdiv in *;
  change (/ 60)%Q with (1 # 60)%Q in *; change (/ 3600)%Q with (1 # 3600)%Q in *; change (/ 15)%Q with (1 # 15)%Q in *;
  change (/ 24)%Q with (1 # 24)%Q in *; change (/ 86400)%Q with (1 # 86400)%Q in *; change (/ 1000000)%Q with (1 # 1000000)%Q in *; lra.
Lemma qlt_bool_t : forall a b, qlt_bool a b = true <-> (a < b)%Q.
Proof. intros. unfold qlt_bool. rewrite negb_true_iff. apply Qle_bool_f. Qed.
Lemma qlt_bool_f : forall a b, qlt_bool a b = false <-> (b <= a)%Q.
Proof. intros. unfold qlt_bool. rewrite negb_false_iff. apply Qle_bool_t. Qed.
Ltac qlt := match goal with
  | |- context [qlt_bool ?a ?b] => let E := fresh "E" in destruct (qlt_bool a b) eqn:E; [apply qlt_bool_t in E|apply qlt_bool_f in E]
  | H : context [qlt_bool ?a ?b] |- _ => let E := fresh "E" in destruct (qlt_bool a b) eqn:E; [apply qlt_bool_t in E|apply qlt_bool_f in E]
  end.
Global Instance qlt_bool_compat : Proper (Qeq ==> Qeq ==> eq) qlt_bool.
Proof. intros a b H c d K. unfold qlt_bool. rewrite H, K. reflexivity. Qed.

Lemma qmod_range : forall x m, (0 < m)%Q -> (0 <= qmod x m < m)%Q.
Proof.
  intros x m H. unfold qmod. destruct (floor_spec (x / m)) as [A B]. set (f := inject_Z (Qfloor (x / m))) in *.
  assert (E : (x == m * (x / m))%Q) by (field; qlra). split.
  - assert (m * f <= m * (x / m))%Q by (rewrite !(Qmult_comm m); apply Qmult_le_compat_r; qlra). qlra.
  - assert (m * (x / m) < m * (f + 1))%Q by (rewrite !(Qmult_comm m); apply Qmult_lt_compat_r; qlra). qlra.
Qed.
Lemma qmod_turns : forall x m, (0 < m)%Q -> exists k, (x == qmod x m + m * inject_Z k)%Q.
Proof. intros x m H. exists (Qfloor (x / m)). unfold qmod. ring. Qed.

(** ** Sexagesimal *)
Lemma floor60 : forall v, Qfloor (v * 60) / 60 = Qfloor v.
Proof.
  intro v. symmetry. apply floor_eq; destruct (floor_spec (v * 60)) as [A B]; set (M := Qfloor (v * 60)) in *.
  - assert (60 * (M / 60) <= M) by lia. apply injZ_le in H. rewrite inject_Z_mult in H. change (inject_Z 60) with 60%Q in H. qlra.
  - assert (M + 1 <= 60 * (M / 60) + 60) by lia. apply injZ_le in H. rewrite !inject_Z_plus, inject_Z_mult in H.
    change (inject_Z 60) with 60%Q in H. change (inject_Z 1) with 1%Q in H. qlra.
Qed.
Lemma sexa_pos : forall v, (0 <= v)%Q ->
  py_int v = Qfloor (v * 60) / 60 /\ py_int (v * 60) = Qfloor (v * 60) /\ (qmod (v * 3600) 60 == v * 3600 - 60 * inject_Z (Qfloor (v * 60)))%Q.
Proof.
  intros v H. rewrite floor60, !py_int_floor by qlra. split; [reflexivity|]. split; [reflexivity|].
  unfold qmod. rewrite (Qfloor_comp (v * 3600 / 60) (v * 60)) by field. reflexivity.
Qed.
Lemma sexa_sum : forall value neg d m s, float_to_sexa value = (neg, d, m, s) ->
  (neg = true <-> (value < 0)%Q) /\ 0 <= d /\ 0 <= m < 60 /\ (0 <= s < 60)%Q /\
  (inject_Z d * 3600 + inject_Z m * 60 + s == Qabs value * 3600)%Q.
Proof.
  intros value neg d m s. unfold float_to_sexa. set (n := qlt_bool value 0). set (v := if n then (value * -(1))%Q else value).
  assert (NV : (n = true <-> (value < 0)%Q)) by apply qlt_bool_t.
  assert (V : (v == Qabs value)%Q).
  { unfold v. destruct n eqn:En.
    - rewrite Qabs_neg by (apply Qlt_le_weak, NV; auto). ring.
    - rewrite Qabs_pos; [reflexivity|]. unfold n in En. apply qlt_bool_f in En. exact En. }
  assert (V0 : (0 <= v)%Q) by (rewrite V; apply Qabs_nonneg).
  destruct (sexa_pos v V0) as (D & M & S). intro H. injection H as <- <- <- <-. rewrite D, M.
  assert (F0 : 0 <= Qfloor (v * 60)) by (apply (Qfloor_resp_le 0); qlra).
  set (F := Qfloor (v * 60)) in *.
  split; [exact NV|]. split; [lia|]. split; [lia|]. split; [apply qmod_range; qlra|].
  rewrite S, <- V.
  assert (E : (inject_Z F == 60 * inject_Z (F / 60) + inject_Z (F mod 60))%Q).
  { assert (X : F = 60 * (F / 60) + F mod 60) by lia. rewrite X at 1. rewrite inject_Z_plus, inject_Z_mult. reflexivity. }
  rewrite E. ring.
Qed.
Lemma sexa_make : forall d m s v, 0 <= d -> 0 <= m < 60 -> (0 <= s < 60)%Q -> (v == inject_Z d + inject_Z m / 60 + s / 3600)%Q ->
  py_int v = d /\ py_int (v * 60) mod 60 = m /\ (qmod (v * 3600) 60 == s)%Q.
Proof.
  intros d m s v Hd Hm Hs Hv.
  assert (D0 : (0 <= inject_Z d)%Q) by (apply (injZ_le 0); auto). assert (M0 : (0 <= inject_Z m)%Q) by (apply (injZ_le 0); lia).
  assert (V0 : (0 <= v)%Q) by qlra. destruct (sexa_pos v V0) as (D & M & S).
  assert (F : Qfloor (v * 60) = 60 * d + m).
  { apply floor_eq; rewrite inject_Z_plus, inject_Z_mult; change (inject_Z 60) with 60%Q; qlra. }
  rewrite F in *. split; [rewrite D; lia|]. split; [rewrite M; lia|]. rewrite S, inject_Z_plus, inject_Z_mult, Hv. change (inject_Z 60) with 60%Q. field.
Qed.

Lemma dms_round : forall deg, (dms_to_deg (deg_to_dms deg) == deg)%Q.
Proof.
  intro deg. unfold dms_to_deg, deg_to_dms. destruct (float_to_sexa deg) as [[[n d] m] s] eqn:E. apply sexa_sum in E.
  destruct E as (N & _ & _ & _ & S). cbn [dms_neg dms_d dms_m dms_s]. destruct n.
  - assert (deg < 0)%Q by (apply N; auto). rewrite Qabs_neg in S by qlra. qlra.
  - assert (0 <= deg)%Q by (apply Qnot_lt_le; intro C; apply N in C; discriminate). rewrite Qabs_pos in S by qlra. qlra.
Qed.
Lemma dms_make : forall n d m s, 0 <= d -> 0 <= m < 60 -> (0 <= s < 60)%Q -> (n = true -> (0 < inject_Z d + inject_Z m / 60 + s / 3600)%Q) ->
  exists s', deg_to_dms (dms_to_deg (mkDms n d m s)) = mkDms n d m s' /\ (s' == s)%Q.
Proof.
  intros n d m s Hd Hm Hs Hn. unfold deg_to_dms, dms_to_deg. cbn [dms_neg dms_d dms_m dms_s].
  set (v := (inject_Z d + inject_Z m / 60 + s / 3600)%Q) in *. unfold float_to_sexa.
  assert (D0 : (0 <= inject_Z d)%Q) by (apply (injZ_le 0); auto). assert (M0 : (0 <= inject_Z m)%Q) by (apply (injZ_le 0); lia).
  assert (V0 : (0 <= v)%Q) by (unfold v; qlra).
  destruct n.
  - specialize (Hn eq_refl). qlt; [|qlra].
    destruct (sexa_make d m s (v * -(1) * -(1)) Hd Hm Hs) as (A & B & C); [unfold v; ring|]. rewrite A, B.
    eexists. split; [reflexivity|exact C].
  - qlt; [qlra|]. destruct (sexa_make d m s v Hd Hm Hs) as (A & B & C); [reflexivity|]. rewrite A, B. eexists. split; [reflexivity|exact C].
Qed.

Definition hms_ok (x : hms) : Prop := 0 <= hms_h x < 24 /\ 0 <= hms_m x < 60 /\ (0 <= hms_s x < 60)%Q.
Lemma new_hms_ok : forall h m s x, new_hms h m s = Ok x -> x = mkHms h m s /\ hms_ok x.
Proof.
  intros h m s x. unfold new_hms. destruct (Z.ltb_spec h 0), (Z.ltb_spec 23 h); cbn [orb]; try discriminate.
  destruct (Z.ltb_spec m 0), (Z.ltb_spec 59 m); cbn [orb]; try discriminate. qlt; [discriminate|]. qle; cbn [orb]; [discriminate|].
  intro X. injection X as <-. split; [reflexivity|]. unfold hms_ok. cbn. split; [lia|]. split; [lia|]. split; qlra.
Qed.
Lemma new_hms_make : forall h m s, 0 <= h < 24 -> 0 <= m < 60 -> (0 <= s < 60)%Q -> new_hms h m s = Ok (mkHms h m s).
Proof.
  intros h m s Hh Hm Hs. unfold new_hms. destruct (Z.ltb_spec h 0), (Z.ltb_spec 23 h); try lia; cbn [orb].
  destruct (Z.ltb_spec m 0), (Z.ltb_spec 59 m); try lia; cbn [orb]. qlt; [qlra|]. qle; [qlra|]. reflexivity.
Qed.
(** deg_to_hms works exactly for |deg| < 360 and then keeps |deg|. *)
Lemma deg_to_hms_spec : forall deg,
  ((Qabs deg < 360)%Q -> exists x, deg_to_hms deg = Ok x /\ hms_ok x /\ (hms_to_deg x == Qabs deg)%Q) /\
  ((360 <= Qabs deg)%Q -> deg_to_hms deg = Raise ValueError).
Proof.
  intro deg. unfold deg_to_hms. destruct (float_to_sexa (deg / 15)) as [[[n h] m] s] eqn:E. apply sexa_sum in E.
  destruct E as (_ & H0 & M & S & SUM).
  assert (AB : (Qabs (deg / 15) * 15 == Qabs deg)%Q).
  { unfold Qdiv. rewrite Qabs_Qmult. change (Qabs (/ 15)) with (/ 15)%Q. field. }
  assert (HH : (inject_Z h * 3600 <= Qabs (deg / 15) * 3600)%Q).
  { assert (0 <= inject_Z m)%Q by (apply (injZ_le 0); lia). qlra. }
  assert (HL : (Qabs (deg / 15) * 3600 < inject_Z h * 3600 + 3600)%Q).
  { assert (inject_Z m <= 59)%Q by (apply (injZ_le m 59); lia). qlra. }
  split; intro HD.
  - assert (h < 24) by (apply injZ_lt; change (inject_Z 24) with 24%Q; qlra).
    rewrite new_hms_make by (auto; lia). eexists. split; [reflexivity|]. split; [split; cbn; [lia|auto]|].
    unfold hms_to_deg. cbn [hms_h hms_m hms_s]. qlra.
  - assert (24 < h + 1) by (apply injZ_lt; rewrite inject_Z_plus; change (inject_Z 24) with 24%Q; change (inject_Z 1) with 1%Q; qlra).
    unfold new_hms. destruct (Z.ltb_spec 23 h); [|lia]. rewrite orb_true_r. reflexivity.
Qed.
Lemma hms_make : forall x deg, hms_ok x -> (deg == hms_to_deg x)%Q ->
  exists s', deg_to_hms deg = Ok (mkHms (hms_h x) (hms_m x) s') /\ (s' == hms_s x)%Q.
Proof.
  intros [h m s] deg (H & M & S) HD. cbn [hms_h hms_m hms_s] in *. unfold hms_to_deg in HD. cbn [hms_h hms_m hms_s] in HD.
  unfold deg_to_hms, float_to_sexa.
  assert (D0 : (0 <= inject_Z h)%Q) by (apply (injZ_le 0); lia). assert (M0 : (0 <= inject_Z m)%Q) by (apply (injZ_le 0); lia).
  qlt; [assert (deg < 0)%Q by qlra; qlra|].
  destruct (sexa_make h m s (deg / 15)) as (A & B & C); [lia|lia|auto|rewrite HD; field|]. rewrite A, B.
  assert (S2 : (0 <= qmod (deg / 15 * 3600) 60 < 60)%Q) by (apply qmod_range; qlra).
  rewrite new_hms_make by auto. eexists. split; [reflexivity|exact C].
Qed.

(** ** Ranges *)
Lemma range_hours_spec : forall h, (0 <= range_hours h <= 24)%Q /\ (exists k, (range_hours h == h + 24 * inject_Z k)%Q) /\
  ((range_hours h == 24)%Q <-> exists n, n < 0 /\ (h == 24 * inject_Z n)%Q).
Proof.
  intro h. unfold range_hours. qle; cbn [andb].
  - qlt.
    + split; [qlra|]. split; [exists 0; change (inject_Z 0) with 0%Q; ring|]. split; [qlra|].
      intros (n & Hn & X). assert (inject_Z n < 0)%Q by (apply (injZ_lt n 0); auto). qlra.
    + qlt; [qlra|]. assert (P := py_int_pos_spec (h / 24) ltac:(qlra)).
      rewrite inject_Z_mult. change (inject_Z 24) with 24%Q.
      split; [qlra|]. split; [exists (- py_int (h / 24)); rewrite inject_Z_opp; ring|]. split; [qlra|].
      intros (n & Hn & X). assert (inject_Z n < 0)%Q by (apply (injZ_lt n 0); auto). qlra.
  - qlt; [|qlra]. assert (P := py_int_neg_spec (h / 24) ltac:(qlra)). set (t := py_int (h / 24)) in *.
    rewrite inject_Z_mult, inject_Z_minus, inj1. change (inject_Z 24) with 24%Q.
    split; [qlra|]. split; [exists (1 - t); rewrite ?inject_Z_minus, ?inj1; ring|]. split.
    + intro X. exists t. split; [apply injZ_lt; change (inject_Z 0) with 0%Q; qlra|qlra].
    + intros (n & Hn & X). assert (t = n); [|subst n; qlra].
      assert (t < n + 1) by (apply injZ_lt; rewrite inject_Z_plus, inj1; qlra).
      assert (n < t + 1) by (apply injZ_lt; rewrite inject_Z_plus, inj1; qlra). lia.
Qed.

(** ** Day of the week *)
Lemma dow_mid : forall D jd, (inject_Z D + (4800001 # 2) < jd < inject_Z D + (4800003 # 2))%Q -> day_of_week jd = (D + 3) mod 7.
Proof.
  intros D jd H. unfold day_of_week. rewrite (py_round_near jd (D + 2400001)); [lia|].
  rewrite inject_Z_plus. change (inject_Z 2400001) with 2400001%Q. apply Qabs_Qlt_condition. qlra.
Qed.
Lemma dow_midnight : forall D, D mod 2 = 0 -> day_of_week (inject_Z D + (4800001 # 2))%Q = (D + 2) mod 7.
Proof.
  intros D H. unfold day_of_week, py_round.
  rewrite (floor_eq (inject_Z D + (4800001 # 2)) (D + 2400000)) by (rewrite inject_Z_plus; change (inject_Z 2400000) with 2400000%Q; qlra).
  assert (EV : Z.even (D + 2400000) = true) by (rewrite Z.even_spec; exists (D / 2 + 1200000); lia). rewrite EV.
  assert (X : (inject_Z D + (4800001 # 2) - inject_Z (D + 2400000) == 1 # 2)%Q) by (rewrite inject_Z_plus; change (inject_Z 2400000) with 2400000%Q; ring).
  qle; [|qlra]. qle; [|qlra]. lia.
Qed.
Lemma dow_midnight_odd : forall D, D mod 2 = 1 -> day_of_week (inject_Z D + (4800001 # 2))%Q = (D + 3) mod 7.
Proof.
  intros D H. unfold day_of_week, py_round.
  rewrite (floor_eq (inject_Z D + (4800001 # 2)) (D + 2400000)) by (rewrite inject_Z_plus; change (inject_Z 2400000) with 2400000%Q; qlra).
  assert (EV : Z.even (D + 2400000) = false).
  { rewrite <- Z.negb_odd. apply negb_false_iff. rewrite Z.odd_spec. exists (D / 2 + 1200000). lia. } rewrite EV.
  assert (X : (inject_Z D + (4800001 # 2) - inject_Z (D + 2400000) == 1 # 2)%Q) by (rewrite inject_Z_plus; change (inject_Z 2400000) with 2400000%Q; ring).
  qle; [|qlra]. qle; [|qlra]. lia.
Qed.

Lemma jd_in_day : forall y mo d h mi s, 0 <= h < 24 -> 0 <= mi < 60 -> (0 <= s < 60)%Q ->
  exists f, (0 <= f < 1)%Q /\ (get_julian_day y mo d h mi s == inject_Z (date_to_mjd y mo d) + (4800001 # 2) + f)%Q /\
   ((f == 0)%Q <-> h = 0 /\ mi = 0 /\ (s < 1 # 1000000)%Q) /\ (f * 86400 <= inject_Z (h * 3600 + mi * 60) + s < f * 86400 + (1 # 1000000))%Q.
Proof.
  intros y mo d h mi s Hh Hm Hs. unfold get_julian_day.
  pose proof (py_int_pos_spec s ltac:(qlra)) as I. set (si := py_int s) in *.
  pose proof (py_int_pos_spec ((s - inject_Z si) * 1000000) ltac:(qlra)) as U. set (us := py_int ((s - inject_Z si) * 1000000)) in *.
  assert (0 <= si < 60). { split; [|apply injZ_lt; change (inject_Z 60) with 60%Q; qlra]. assert (-1 < si) by (apply injZ_lt; change (inject_Z (-1)) with (-1)%Q; qlra). lia. }
  assert (0 <= us < 1000000). { split; [|apply injZ_lt; change (inject_Z 1000000) with 1000000%Q; qlra]. assert (-1 < us) by (apply injZ_lt; change (inject_Z (-1)) with (-1)%Q; qlra). lia. }
  assert (UQ : (0 <= inject_Z us)%Q) by (apply (injZ_le 0); lia). assert (UQ2 : (inject_Z us <= 999999)%Q) by (apply (injZ_le us 999999); lia).
  assert (T : (0 <= inject_Z (h * 3600 + mi * 60 + si) <= 86399)%Q) by (split; [apply (injZ_le 0)|apply (injZ_le _ 86399)]; lia).
  set (t := inject_Z (h * 3600 + mi * 60 + si)) in *. set (uq := inject_Z us) in *.
  assert (TE : (t == inject_Z (h * 3600 + mi * 60) + inject_Z si)%Q) by (unfold t; rewrite inject_Z_plus; reflexivity).
  exists ((t + uq / 1000000) / 86400)%Q. split; [split|].
  - apply Qle_shift_div_l; [reflexivity|]. qlra.
  - apply Qlt_shift_div_r; [reflexivity|]. qlra.
  - split; [reflexivity|].
    assert (FE : ((t + uq / 1000000) / 86400 * 86400 == t + uq / 1000000)%Q) by (field).
    split.
    + split; intro H1.
      * assert (X : (t + uq / 1000000 == 0)%Q) by (rewrite <- FE, H1; reflexivity).
        assert (T0 : (t <= 0)%Q) by qlra. unfold t in T0. apply (proj1 (injZ_le _ 0)) in T0.
        assert (us = 0). { assert (us < 1); [|lia]. apply injZ_lt. fold uq. change (inject_Z 1) with 1%Q. qlra. }
        assert (h = 0 /\ mi = 0 /\ si = 0) as (-> & -> & S0) by lia. split; [auto|]. split; [auto|].
        assert (EI : (inject_Z si == 0)%Q) by (rewrite S0; reflexivity). assert (EU : (inject_Z us == 0)%Q) by (rewrite H2; reflexivity). qlra.
      * destruct H1 as (-> & -> & S1).
        assert (si = 0). { assert (si < 1); [|lia]. apply injZ_lt. change (inject_Z 1) with 1%Q. qlra. }
        assert (us = 0). { assert (us < 1); [|lia]. apply injZ_lt. fold uq. change (inject_Z 1) with 1%Q. assert (0 <= inject_Z si)%Q by (apply (injZ_le 0); lia). qlra. }
        unfold t, uq. rewrite H1, H2. reflexivity.
    + rewrite FE, TE. qlra.
Qed.

(** ** Leap seconds *)
Lemma leap_secs_ok : forall acc e u, (Qabs e < 4 # 100)%Q -> (63072000 <= u)%Q -> leap acc (day_of u) = 0 ->
  exists r, leap_secs acc e u = Ok r /\ (r == inject_Z (acc (day_of u)))%Q.
Proof.
  intros acc e u He Hu HL. unfold leap_secs. qlt; [qlra|]. eexists. split; [reflexivity|].
  apply Qabs_Qlt_condition in He.
  rewrite (py_round_near _ (10 * (acc (day_of u) - 8))).
  - rewrite inject_Z_mult, inject_Z_minus. change (inject_Z 10) with 10%Q. change (inject_Z 8) with 8%Q. field.
  - unfold tai. rewrite HL, inject_Z_mult, inject_Z_minus. change (inject_Z 10) with 10%Q. change (inject_Z 8) with 8%Q. change (inject_Z 0) with 0%Q.
    apply Qabs_Qlt_condition. qlra.
Qed.
Lemma leap_secs_noon : forall acc d, leap acc d = 1 -> 730 <= d ->
  exists r, leap_secs acc 0 (inject_Z (86400 * d + 43200)) = Ok r /\ (r == inject_Z (acc d) + (1 # 2))%Q.
Proof.
  intros acc d HL Hd. set (u := inject_Z (86400 * d + 43200)).
  assert (U : (u == 86400 * inject_Z d + 43200)%Q) by (unfold u; rewrite inject_Z_plus, inject_Z_mult; reflexivity).
  assert (D : day_of u = d).
  { unfold day_of. apply floor_eq; [apply Qle_shift_div_l|apply Qlt_shift_div_r]; try reflexivity; qlra. }
  assert (D2 : (730 <= inject_Z d)%Q) by (apply (injZ_le 730); auto).
  unfold leap_secs. qlt; [qlra|]. eexists. split; [reflexivity|].
  rewrite (py_round_near _ (10 * (acc d - 8) + 5)).
  - rewrite inject_Z_plus, inject_Z_mult, inject_Z_minus. change (inject_Z 10) with 10%Q. change (inject_Z 8) with 8%Q. change (inject_Z 5) with 5%Q. field.
  - assert (TT : (tai acc u == u + inject_Z (acc d) + (1 # 2))%Q).
    { unfold tai. rewrite D, HL. assert (X : (u / 86400 == inject_Z d + (1 # 2))%Q) by (rewrite U; field). rewrite X. change (inject_Z 1) with 1%Q. ring. }
    rewrite TT, inject_Z_plus, inject_Z_mult, inject_Z_minus. change (inject_Z 10) with 10%Q. change (inject_Z 8) with 8%Q. change (inject_Z 5) with 5%Q.
    apply Qabs_Qlt_condition. qlra.
Qed.

(** ** Time zones *)
Definition cdate_ok (c : cdate) : Prop :=
  valid_date (cd_y c) (cd_mo c) (cd_d c) /\ 0 <= cd_h c < 24 /\ 0 <= cd_mi c < 60 /\ (0 <= cd_s c < 60)%Q.
(** The instant, in seconds since 1970. *)
Definition instant (c : cdate) : Q :=
  (inject_Z ((date_to_mjd (cd_y c) (cd_mo c) (cd_d c) - 40587) * 86400 + cd_h c * 3600 + cd_mi c * 60) + cd_s c)%Q.

Lemma gmtime_spec : forall t f, (0 <= f < 1)%Q -> cdate_ok (from_gmtime t f) /\ (instant (from_gmtime t f) == inject_Z t + f)%Q /\
  py_int (cd_s (from_gmtime t f)) = t mod 60 /\ (frac_sec (from_gmtime t f) == f)%Q.
Proof.
  intros t f Hf. unfold from_gmtime. pose proof (ord2ymd_ok (t / 86400 + 719163)) as O.
  destruct (ord2ymd (t / 86400 + 719163)) as [[y m] d]. destruct O as [V E].
  assert (B : 0 <= (t mod 86400) mod 60 < 60) by lia.
  assert (BQ : (0 <= inject_Z ((t mod 86400) mod 60) <= 59)%Q) by (split; [apply (injZ_le 0)|apply (injZ_le _ 59)]; lia).
  assert (PI : py_int (inject_Z ((t mod 86400) mod 60) + f) = (t mod 86400) mod 60).
  { rewrite py_int_floor by qlra. apply floor_eq; qlra. }
  assert (MM : (t mod 86400) mod 60 = t mod 60) by lia.
  split; [|split; [|split]].
  - unfold cdate_ok. cbn [cd_y cd_mo cd_d cd_h cd_mi cd_s]. split; [auto|]. split; [lia|]. split; [lia|]. qlra.
  - unfold instant. cbn [cd_y cd_mo cd_d cd_h cd_mi cd_s]. rewrite date_to_mjd_z, E, Qplus_assoc, <- inject_Z_plus.
    replace (_ + (t mod 86400) mod 60) with t by lia. reflexivity.
  - cbn [cd_s]. rewrite PI. exact MM.
  - unfold frac_sec. cbn [cd_s]. rewrite PI. ring.
Qed.
Lemma shown_ok : forall s, (0 <= s)%Q -> (s - inject_Z (py_int s) < 9995 # 10000)%Q -> shown_secs s = py_int s.
Proof.
  intros s H0 H. unfold shown_secs. pose proof (py_int_pos_spec s H0) as P. set (k := py_int s) in *.
  pose proof (py_round_spec (s * 1000)) as R. apply Qabs_Qle_condition in R. set (r := py_round (s * 1000)) in *.
  assert (1000 * k - 1 < r). { apply injZ_lt. rewrite inject_Z_minus, inject_Z_mult, inj1. change (inject_Z 1000) with 1000%Q. qlra. }
  assert (r < 1000 * k + 1000). { apply injZ_lt. rewrite inject_Z_plus, inject_Z_mult. change (inject_Z 1000) with 1000%Q. qlra. }
  lia.
Qed.
Lemma shown_late : forall s, (0 <= s)%Q -> (9995 # 10000 < s - inject_Z (py_int s))%Q -> shown_secs s = py_int s + 1.
Proof.
  intros s H0 H. unfold shown_secs. pose proof (py_int_pos_spec s H0) as P. set (k := py_int s) in *.
  rewrite (py_round_near _ (1000 * k + 1000)); [lia|].
  rewrite inject_Z_plus, inject_Z_mult. change (inject_Z 1000) with 1000%Q. apply Qabs_Qlt_condition. qlra.
Qed.
Lemma timegm_ok : forall c, cdate_ok c -> (frac_sec c < 9995 # 10000)%Q -> (inject_Z (timegm c) + frac_sec c == instant c)%Q.
Proof.
  intros c (V & H & M & S) F. unfold timegm, instant. rewrite shown_ok by (auto; apply S). unfold frac_sec. rewrite inject_Z_plus. ring.
Qed.
Lemma timegm_late : forall c, cdate_ok c -> (9995 # 10000 < frac_sec c)%Q -> (inject_Z (timegm c) + frac_sec c == instant c + 1)%Q.
Proof.
  intros c (V & H & M & S) F. unfold timegm, instant. rewrite shown_late by (auto; apply S). unfold frac_sec. rewrite !inject_Z_plus. change (inject_Z 1) with 1%Q. ring.
Qed.
Lemma frac_range : forall c, cdate_ok c -> (0 <= frac_sec c < 1)%Q.
Proof. intros c (_ & _ & _ & S). unfold frac_sec. pose proof (py_int_pos_spec (cd_s c) ltac:(qlra)). qlra. Qed.
(** Two valid dates at the same instant are the same. *)
Lemma instant_inj : forall c d, cdate_ok c -> cdate_ok d -> (instant c == instant d)%Q ->
  cd_y c = cd_y d /\ cd_mo c = cd_mo d /\ cd_d c = cd_d d /\ cd_h c = cd_h d /\ cd_mi c = cd_mi d /\ (cd_s c == cd_s d)%Q.
Proof.
  intros c d (V & H & M & S) (V' & H' & M' & S') E. unfold instant in E.
  set (a := (date_to_mjd (cd_y c) (cd_mo c) (cd_d c) - 40587) * 86400 + cd_h c * 3600 + cd_mi c * 60) in *.
  set (b := (date_to_mjd (cd_y d) (cd_mo d) (cd_d d) - 40587) * 86400 + cd_h d * 3600 + cd_mi d * 60) in *.
  assert (a < b + 60) by (apply injZ_lt; rewrite inject_Z_plus; change (inject_Z 60) with 60%Q; qlra).
  assert (b < a + 60) by (apply injZ_lt; rewrite inject_Z_plus; change (inject_Z 60) with 60%Q; qlra).
  assert (a = b) by (unfold a, b in *; lia).
  assert (D : date_to_mjd (cd_y c) (cd_mo c) (cd_d c) = date_to_mjd (cd_y d) (cd_mo d) (cd_d d)) by (unfold a, b in *; lia).
  rewrite !date_to_mjd_z in D. apply mjdz_inj in D; auto. injection D as -> -> ->.
  assert (E2 : (cd_s c == cd_s d)%Q) by (rewrite H2 in E; qlra). unfold a, b in *. repeat split; auto; lia.
Qed.
Lemma zone_there : forall c off, cdate_ok c -> (frac_sec c < 9995 # 10000)%Q ->
  let z := date_to_zonedate c off in cdate_ok (fst z) /\ snd z = off /\ (instant (fst z) == instant c + inject_Z off)%Q /\ (frac_sec (fst z) == frac_sec c)%Q.
Proof.
  intros c off HC HF z. unfold z, date_to_zonedate. cbn [fst snd]. destruct (gmtime_spec (timegm c + off) (frac_sec c) (frac_range c HC)) as (A & B & _ & D).
  split; [auto|]. split; [auto|]. split; [|auto]. rewrite B, inject_Z_plus, <- (timegm_ok c HC HF). ring.
Qed.
Lemma zone_back : forall z, cdate_ok (fst z) -> (frac_sec (fst z) < 9995 # 10000)%Q ->
  cdate_ok (zonedate_to_date z) /\ (instant (zonedate_to_date z) == instant (fst z) - inject_Z (snd z))%Q.
Proof.
  intros z HC HF. unfold zonedate_to_date. destruct (gmtime_spec (timegm (fst z) - snd z) (frac_sec (fst z)) (frac_range _ HC)) as (A & B & _ & D).
  split; [auto|]. rewrite B, inject_Z_minus, <- (timegm_ok _ HC HF). ring.
Qed.
