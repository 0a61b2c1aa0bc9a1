From Coq Require Import ZArith QArith Qround Qabs Bool Lqa Lia.
From Verif Require Export M_Time P_Num.
Open Scope Z_scope.

Lemma inject_Z_minus : forall a b, (inject_Z (a - b) == inject_Z a - inject_Z b)%Q.
Proof. intros. unfold Z.sub. rewrite inject_Z_plus, inject_Z_opp. reflexivity. Qed.
Lemma inj1 : (inject_Z 1 == 1)%Q. Proof. reflexivity. Qed.

Lemma mk_unix : forall si sf, (unix (mk_timestamp si sf) == inject_Z si + sf)%Q.
Proof.
  intros si sf. unfold mk_timestamp, unix. repeat qle; cbn [fst snd negb]; rewrite ?inject_Z_plus; ring.
Qed.
Lemma mk_range : forall si sf, (0 <= snd (mk_timestamp si sf) <= 1)%Q.
Proof.
  intros si sf. unfold mk_timestamp. repeat qle; cbn [fst snd negb]; try lra.
  - pose proof (py_int_pos_spec sf ltac:(lra)). lra.
  - pose proof (py_int_neg_spec sf ltac:(lra)). rewrite inject_Z_minus, inj1. lra.
Qed.
Lemma mk_one : forall si sf, (snd (mk_timestamp si sf) == 1)%Q <-> exists n, n < 0 /\ (sf == inject_Z n)%Q.
Proof.
  intros si sf. unfold mk_timestamp. split.
  - intro H. repeat qle; cbn [fst snd negb] in H; try lra.
    + pose proof (py_int_pos_spec sf ltac:(lra)). lra.
    + rewrite inject_Z_minus, inj1 in H. exists (py_int sf). split; [|lra].
      apply injZ_lt. change (inject_Z 0) with 0%Q. lra.
  - intros (n & Hn & E). apply injZ_lt in Hn. change (inject_Z 0) with 0%Q in Hn. repeat qle; cbn [fst snd negb]; try lra.
    assert (I : py_int sf = n) by (rewrite E; apply py_int_Z). rewrite I, inject_Z_minus, inj1. lra.
Qed.
Lemma mk_f_unix : forall si sf, (unix (mk_timestamp_f si sf) == si + sf)%Q.
Proof. intros. unfold mk_timestamp_f. rewrite mk_unix. ring. Qed.

Lemma fS_q : (inject_Z fS == 196000000)%Q. Proof. reflexivity. Qed.
Lemma tag_pair : forall v o, from_dp_timetag v o = ((v - o) / fS, (inject_Z ((v - o) mod fS) / inject_Z fS)%Q).
Proof.
  intros v o. unfold from_dp_timetag. set (t := v - o).
  replace (t - t / fS * fS) with (t mod fS) by (pose proof (Z.div_mod t fS ltac:(discriminate)); lia).
  pose proof (Z.mod_pos_bound t fS ltac:(reflexivity)) as B. destruct B as [B1 B2]. apply injZ_le in B1. apply injZ_lt in B2.
  rewrite fS_q in B2. change (inject_Z 0) with 0%Q in B1.
  assert (0 <= inject_Z (t mod fS) / inject_Z fS)%Q by (rewrite fS_q; apply Qle_shift_div_l; lra).
  assert (inject_Z (t mod fS) / inject_Z fS < 1)%Q by (rewrite fS_q; apply Qlt_shift_div_r; lra).
  unfold mk_timestamp. repeat qle; cbn [negb]; try lra. reflexivity.
Qed.
Lemma tag_unix : forall v o, (unix (from_dp_timetag v o) == inject_Z (v - o) / inject_Z fS)%Q.
Proof.
  intros v o. rewrite tag_pair. unfold unix. cbn [fst snd]. set (t := v - o).
  setoid_replace (inject_Z t) with (inject_Z (fS * (t / fS) + t mod fS)) at 1.
  - rewrite inject_Z_plus, inject_Z_mult. field. discriminate.
  - rewrite <- Z.div_mod by discriminate. reflexivity.
Qed.

Section Utc.
Context (acc : Z -> Z).
Lemma acc_const : forall a b, a <= b -> (forall d, a <= d < b -> leap acc d = 0) -> acc b = acc a.
Proof.
  intros a b H. remember (Z.to_nat (b - a)) as n eqn:E. revert a H E.
  induction n as [|n IH]; intros a H E HL.
  - replace b with a by lia. reflexivity.
  - assert (L := HL a ltac:(lia)). unfold leap in L. rewrite (IH (a + 1)); [lia|lia|lia|intros; apply HL; lia].
Qed.
Global Instance day_of_compat : Proper (Qeq ==> eq) day_of.
Proof. intros x y H. unfold day_of. apply Qfloor_comp. rewrite H. reflexivity. Qed.
Global Instance tai_compat : Proper (Qeq ==> Qeq) (tai acc).
Proof. intros x y H. unfold tai. rewrite (day_of_compat _ _ H). rewrite H. reflexivity. Qed.
Lemma day_mono : forall u v, (u <= v)%Q -> day_of u <= day_of v.
Proof. intros u v H. apply Qfloor_resp_le. unfold Qdiv. apply Qmult_le_compat_r; [auto|discriminate]. Qed.
(** Elapsed time equals the difference of the clock readings when no leap second is near. *)
Lemma tai_diff : forall u v lo hi, (lo <= u <= hi)%Q -> (lo <= v <= hi)%Q ->
  (forall d, day_of lo <= d <= day_of hi -> leap acc d = 0) -> (tai acc u - tai acc v == u - v)%Q.
Proof.
  intros u v lo hi [U1 U2] [V1 V2] H. apply day_mono in U1, U2, V1, V2. unfold tai.
  rewrite !H by lia. assert (A : acc (day_of u) = acc (day_of v)).
  { destruct (Z.le_ge_cases (day_of u) (day_of v)).
    - symmetry. apply acc_const; [auto|intros; apply H; lia].
    - apply acc_const; [lia|intros; apply H; lia]. }
  rewrite A. change (inject_Z 0) with 0%Q. ring.
Qed.

Lemma dp_timetag_ok : forall tt e1 e2, let u := (inject_Z tt / inject_Z fS)%Q in
  (Qabs e1 <= 1)%Q -> (Qabs e2 < 1 # 200)%Q ->
  (forall d, day_of (u - 2) <= d <= day_of (u + 2) -> leap acc d = 0) ->
  dp_timetag acc e1 e2 u = tt.
Proof.
  intros tt e1 e2 u H1 H2 HL. unfold dp_timetag. set (sec := py_int (u + e1)).
  pose proof (py_int_close (u + e1)) as C. fold sec in C. apply Qabs_Qlt_condition in C. apply Qabs_Qle_condition in H1.
  assert (D := tai_diff u (inject_Z sec) (u - 2) (u + 2) ltac:(lra) ltac:(lra) HL).
  assert (X : ((tai acc u - tai acc (inject_Z sec)) * inject_Z fS + e2 == inject_Z (tt - sec * fS) + e2)%Q).
  { rewrite D. unfold u. rewrite inject_Z_minus, inject_Z_mult. field. discriminate. }
  assert (P : (py_round2 ((tai acc u - tai acc (inject_Z sec)) * inject_Z fS + e2) == inject_Z (tt - sec * fS))%Q).
  { apply py_round2_near. rewrite X. setoid_replace (inject_Z (tt - sec * fS) + e2 - inject_Z (tt - sec * fS))%Q with e2 by ring. exact H2. }
  rewrite P, py_int_Z. ring.
Qed.

(** start of a day in TAI *)
Definition day_start (d : Z) : Z := 86400 * d + acc d.
Hypothesis leap_nonneg : forall d, 0 <= leap acc d.
Lemma day_start_lt : forall a b, a < b -> day_start a < day_start b.
Proof.
  intros a b H. remember (Z.to_nat (b - a)) as n eqn:E. revert a H E.
  induction n as [|n IH]; intros a H E; [lia|].
  assert (L := leap_nonneg a). unfold leap in L. assert (day_start a < day_start (a + 1)) by (unfold day_start; lia).
  destruct (Z.eq_dec (a + 1) b) as [<-|]; [auto|]. specialize (IH (a + 1) ltac:(lia) ltac:(lia)). lia.
Qed.
Lemma tai_in_day : forall u, (inject_Z (day_start (day_of u)) <= tai acc u /\ tai acc u < inject_Z (day_start (day_of u + 1)))%Q.
Proof.
  intro u. unfold tai. destruct (floor_spec (u / 86400)) as [A B]. fold (day_of u) in *. set (d := day_of u) in *.
  assert (L := leap_nonneg d). assert (S1 : day_start (d + 1) = 86400 * d + 86400 + acc d + leap acc d) by (unfold day_start, leap; lia).
  rewrite S1. unfold day_start. rewrite !inject_Z_plus, !inject_Z_mult. change (inject_Z 86400) with 86400%Q.
  apply injZ_le in L. change (inject_Z 0) with 0%Q in L. set (l := inject_Z (leap acc d)) in *.
  assert (E : (u == (u / 86400) * 86400)%Q) by field. set (x := (u / 86400)%Q) in *. 
  assert (0 <= l * (x - inject_Z d))%Q by (apply Qmult_le_0_compat; lra).
  assert (l * (x - inject_Z d) <= l)%Q by (setoid_replace l with (l * 1)%Q at 2 by ring; apply Qmult_le_compat_nonneg; lra).
  split; rewrite E; lra.
Qed.
Lemma tai_lt : forall u v, (u < v)%Q -> (tai acc u < tai acc v)%Q.
Proof.
  intros u v H. pose proof (day_mono u v ltac:(lra)) as D. destruct (Z.eq_dec (day_of u) (day_of v)) as [E|].
  - unfold tai. rewrite <- E. assert (L := leap_nonneg (day_of u)). apply injZ_le in L. change (inject_Z 0) with 0%Q in L.
    set (l := inject_Z (leap acc (day_of u))) in *. set (d := inject_Z (day_of u)).
    assert (u / 86400 < v / 86400)%Q by (apply Qlt_shift_div_l; [reflexivity|]; setoid_replace (u / 86400 * 86400)%Q with u by field; auto).
    assert (l * (u / 86400 - d) <= l * (v / 86400 - d))%Q by (rewrite Qmult_comm, (Qmult_comm l); apply Qmult_le_compat_r; lra). lra.
  - destruct (tai_in_day u) as [_ A]. destruct (tai_in_day v) as [B _].
    assert (M : day_start (day_of u + 1) <= day_start (day_of v)).
    { destruct (Z.eq_dec (day_of u + 1) (day_of v)) as [<-|]; [lia|]. apply Z.lt_le_incl, day_start_lt. lia. }
    apply injZ_le in M. lra.
Qed.
Lemma ts_lt_ok : forall u v, ts_lt acc u v = true <-> (u < v)%Q.
Proof.
  intros u v. unfold ts_lt. qle; cbn [negb]; split; intro H; try congruence.
  - apply tai_lt in H. lra.
  - destruct (Qlt_le_dec u v) as [|C]; auto. exfalso. apply Qle_lteq in C. destruct C as [C|C].
    + apply tai_lt in C. lra.
    + rewrite C in E. lra.
Qed.
End Utc.

(** On a day with a leap second tags do not survive. *)
Lemma leap_day_tag : forall acc d, leap acc d = 1 -> 0 <= d ->
  let tt := 86400 * d * fS + 98000000 in dp_timetag acc 0 0 (unix (from_dp_timetag tt 0)) = tt + 1134.
Proof.
  intros acc d L Hd tt.
  assert (U : (unix (from_dp_timetag tt 0) == inject_Z (86400 * d) + (1 # 2))%Q).
  { rewrite tag_unix, Z.sub_0_r. unfold tt. rewrite inject_Z_plus, (inject_Z_mult _ fS).
    change (inject_Z fS) with 196000000%Q. change (inject_Z 98000000) with 98000000%Q. field. }
  set (u := unix (from_dp_timetag tt 0)) in *.
  assert (S : py_int (u + 0) = 86400 * d).
  { rewrite py_int_floor.
    - apply floor_eq; rewrite U; lra.
    - rewrite U. assert (H : 0 <= 86400 * d) by lia. apply injZ_le in H. change (inject_Z 0) with 0%Q in H. lra. }
  assert (D1 : day_of u = d).
  { apply floor_eq.
    - apply Qle_shift_div_l; [reflexivity|]. rewrite U, inject_Z_mult. change (inject_Z 86400) with 86400%Q. lra.
    - apply Qlt_shift_div_r; [reflexivity|]. rewrite U, inject_Z_mult. change (inject_Z 86400) with 86400%Q. lra. }
  assert (D2 : day_of (inject_Z (86400 * d)) = d).
  { apply floor_eq.
    - apply Qle_shift_div_l; [reflexivity|]. rewrite inject_Z_mult. change (inject_Z 86400) with 86400%Q. lra.
    - apply Qlt_shift_div_r; [reflexivity|]. rewrite inject_Z_mult. change (inject_Z 86400) with 86400%Q. lra. }
  unfold dp_timetag. rewrite S. unfold tai. rewrite D1, D2, L.
  assert (X : ((u + inject_Z (acc d) + inject_Z 1 * (u / 86400 - inject_Z d) -
       (inject_Z (86400 * d) + inject_Z (acc d) + inject_Z 1 * (inject_Z (86400 * d) / 86400 - inject_Z d))) * inject_Z fS + 0
       == (1 # 2) * (86401 # 86400) * 196000000)%Q).
  { rewrite U, inject_Z_mult. change (inject_Z 86400) with 86400%Q. change (inject_Z fS) with 196000000%Q. change (inject_Z 1) with 1%Q. field. }
  assert (R : (py_round2 ((u + inject_Z (acc d) + inject_Z 1 * (u / 86400 - inject_Z d) -
       (inject_Z (86400 * d) + inject_Z (acc d) + inject_Z 1 * (inject_Z (86400 * d) / 86400 - inject_Z d))) * inject_Z fS + 0) == 9800113426 # 100)%Q).
  { unfold py_round2. rewrite X. reflexivity. }
  rewrite R. change (py_int (9800113426 # 100)) with 98001134. unfold tt. ring.
Qed.

(** ** MJD splitting *)
Lemma loop_ge1_ok : forall n m f m' f', (f < 1 + inject_Z (Z.of_nat n))%Q -> loop_ge1 n m f = (m', f') ->
  (inject_Z m' + f' == inject_Z m + f)%Q /\ (f' < 1)%Q /\ ((0 <= f)%Q -> (0 <= f')%Q) /\ ((f < 0)%Q -> m' = m /\ f' = f).
Proof.
  induction n as [|n IH]; intros m f m' f' B H; cbn [loop_ge1] in H.
  - injection H as <- <-. change (inject_Z (Z.of_nat 0)) with 0%Q in B. repeat split; auto; lra.
  - qle.
    + assert (B' : (f - 1 < 1 + inject_Z (Z.of_nat n))%Q).
      { rewrite Nat2Z.inj_succ, <- Z.add_1_r, inject_Z_plus, inj1 in B. lra. }
      destruct (IH _ _ _ _ B' H) as (A1 & A2 & A3 & A4). rewrite inject_Z_plus, inj1 in A1.
      split; [lra|]. split; [auto|]. split; [intro; apply A3; lra|intro; lra].
    + injection H as <- <-. repeat split; auto; lra.
Qed.
Lemma loop_lt0_ok : forall n m f m' f', (- inject_Z (Z.of_nat n) <= f)%Q -> loop_lt0 n m f = (m', f') ->
  (inject_Z m' + f' == inject_Z m + f)%Q /\ (0 <= f')%Q /\ ((f < 1)%Q -> (f' < 1)%Q) /\ ((0 <= f)%Q -> m' = m /\ f' = f).
Proof.
  induction n as [|n IH]; intros m f m' f' B H; cbn [loop_lt0] in H.
  - injection H as <- <-. change (inject_Z (Z.of_nat 0)) with 0%Q in B. repeat split; auto; lra.
  - qle; cbn [negb] in H.
    + injection H as <- <-. repeat split; auto; lra.
    + assert (B' : (- inject_Z (Z.of_nat n) <= f + 1)%Q).
      { rewrite Nat2Z.inj_succ, <- Z.add_1_r, inject_Z_plus, inj1 in B. lra. }
      destruct (IH _ _ _ _ B' H) as (A1 & A2 & A3 & A4). rewrite inject_Z_minus, inj1 in A1.
      split; [lra|]. split; [auto|]. split; [intro; apply A3; lra|intro; lra].
Qed.

Lemma pulsar_all : forall jd1 jd2 m s f, pulsar_mjd jd1 jd2 = (m, s, f) ->
  (inject_Z m * 86400 + inject_Z s + f == (jd1 + jd2 - (4800001 # 2)) * 86400)%Q /\ 0 <= s <= 86400 /\ (0 <= f < 2)%Q.
Proof.
  intros jd1 jd2 m s f. unfold pulsar_mjd.
  set (j1i := py_int jd1). set (j2i := py_int jd2). set (mq := (inject_Z (j1i + j2i) - (4800001 # 2))%Q).
  pose proof (py_int_close jd1) as C1. pose proof (py_int_close jd2) as C2. pose proof (py_int_close mq) as C3.
  fold j1i in C1. fold j2i in C2. apply Qabs_Qlt_condition in C1, C2, C3.
  destruct (loop_ge1 3 (py_int mq) _) as [m1 g1] eqn:L1. apply loop_ge1_ok in L1; [|change (inject_Z (Z.of_nat 3)) with 3%Q; lra].
  destruct (loop_ge1 3 m1 _) as [m2 g2] eqn:L2. apply loop_ge1_ok in L2; [|change (inject_Z (Z.of_nat 3)) with 3%Q; lra].
  destruct L1 as (A1 & A2 & A3 & A4). destruct L2 as (B1 & B2 & B3 & B4).
  assert (G1 : (-2 < g1)%Q). { destruct (Qlt_le_dec (jd1 - inject_Z j1i + (mq - inject_Z (py_int mq))) 0) as [N|N]; [destruct (A4 N) as [_ ->]; lra|specialize (A3 N); lra]. }
  assert (G2 : (-1 < g2)%Q). { destruct (Qlt_le_dec (jd2 - inject_Z j2i) 0) as [N|N]; [destruct (B4 N) as [_ ->]; lra|specialize (B3 N); lra]. }
  destruct (loop_lt0 3 m2 g1) as [m3 h1] eqn:L3. apply loop_lt0_ok in L3; [|change (inject_Z (Z.of_nat 3)) with 3%Q; lra].
  destruct (loop_lt0 3 m3 g2) as [m4 h2] eqn:L4. apply loop_lt0_ok in L4; [|change (inject_Z (Z.of_nat 3)) with 3%Q; lra].
  destruct L3 as (D1 & D2 & D3 & _). destruct L4 as (E1 & E2 & E3 & _). specialize (D3 A2). specialize (E3 B2).
  pose proof (py_int_pos_spec (h1 * 86400) ltac:(lra)) as P1. pose proof (py_int_pos_spec (h2 * 86400) ltac:(lra)) as P2.
  set (i1 := py_int (h1 * 86400)) in *. set (i2 := py_int (h2 * 86400)) in *.
  assert (I1 : 0 <= i1 < 86400). { split; [apply (proj1 (injZ_lt (-1) i1)) || idtac|]; [|apply injZ_lt; change (inject_Z 86400) with 86400%Q; lra].
    assert (-1 < i1) by (apply injZ_lt; change (inject_Z (-1)) with (-1)%Q; lra). lia. }
  assert (I2 : 0 <= i2 < 86400). { split; [|apply injZ_lt; change (inject_Z 86400) with 86400%Q; lra].
    assert (-1 < i2) by (apply injZ_lt; change (inject_Z (-1)) with (-1)%Q; lra). lia. }
  assert (MQ : (mq == inject_Z j1i + inject_Z j2i - (4800001 # 2))%Q) by (unfold mq; rewrite inject_Z_plus; reflexivity).
  assert (SUM : (inject_Z m4 + h1 + h2 == jd1 + jd2 - (4800001 # 2))%Q) by lra.
  destruct (86400 <? i1 + i2) eqn:E; intro H;
    apply pair_equal_spec in H; destruct H as [H <-]; apply pair_equal_spec in H; destruct H as [<- <-].
  - split; [|split; [lia|lra]]. rewrite ?inject_Z_minus, ?inject_Z_plus, inj1. change (inject_Z 86400) with 86400%Q. lra.
  - split; [|split; [lia|lra]]. rewrite inject_Z_plus. lra.
Qed.

Lemma int_zero : forall k a b, (inject_Z k == a - b)%Q -> (0 <= a < 1)%Q -> (0 <= b < 1)%Q -> k = 0.
Proof.
  intros k a b H A B. assert (k < 1) by (apply injZ_lt; rewrite inj1; lra).
  assert (-1 < k) by (apply injZ_lt; change (inject_Z (-1)) with (-1)%Q; lra). lia.
Qed.
(** With a whole number of days in jd1 (as astropy keeps it). *)
Lemma pulsar_norm : forall J jd2 D S F m s f, 0 <= S < 86400 -> (0 <= F < 1)%Q ->
  (inject_Z J + jd2 - (4800001 # 2) == inject_Z D + (inject_Z S + F) / 86400)%Q ->
  pulsar_mjd (inject_Z J) jd2 = (m, s, f) ->
  (f == F)%Q /\ if S =? 0 then m = D - 1 /\ s = 86400 else m = D /\ s = S.
Proof.
  intros J jd2 D S F m s f HS HF HT. unfold pulsar_mjd. rewrite py_int_Z.
  set (j2i := py_int jd2). set (mq := (inject_Z (J + j2i) - (4800001 # 2))%Q).
  pose proof (py_int_close jd2) as C2. pose proof (py_int_close mq) as C3.
  fold j2i in C2. apply Qabs_Qlt_condition in C2, C3.
  destruct (loop_ge1 3 (py_int mq) _) as [m1 g1] eqn:L1. apply loop_ge1_ok in L1; [|change (inject_Z (Z.of_nat 3)) with 3%Q; lra].
  destruct (loop_ge1 3 m1 _) as [m2 g2] eqn:L2. apply loop_ge1_ok in L2; [|change (inject_Z (Z.of_nat 3)) with 3%Q; lra].
  destruct L1 as (A1 & A2 & A3 & A4). destruct L2 as (B1 & B2 & B3 & B4).
  assert (G1 : (-2 < g1)%Q). { destruct (Qlt_le_dec (inject_Z J - inject_Z J + (mq - inject_Z (py_int mq))) 0) as [N|N]; [destruct (A4 N) as [_ ->]; lra|specialize (A3 N); lra]. }
  assert (G2 : (-1 < g2)%Q). { destruct (Qlt_le_dec (jd2 - inject_Z j2i) 0) as [N|N]; [destruct (B4 N) as [_ ->]; lra|specialize (B3 N); lra]. }
  destruct (loop_lt0 3 m2 g1) as [m3 h1] eqn:L3. apply loop_lt0_ok in L3; [|change (inject_Z (Z.of_nat 3)) with 3%Q; lra].
  destruct (loop_lt0 3 m3 g2) as [m4 h2] eqn:L4. apply loop_lt0_ok in L4; [|change (inject_Z (Z.of_nat 3)) with 3%Q; lra].
  destruct L3 as (D1 & D2 & D3 & _). destruct L4 as (E1 & E2 & E3 & _). specialize (D3 A2). specialize (E3 B2).
  assert (MQ : (mq == inject_Z J + inject_Z j2i - (4800001 # 2))%Q) by (unfold mq; rewrite inject_Z_plus; reflexivity).
  assert (H1 : (h1 == 1 # 2)%Q).
  { assert (K := int_zero (J + j2i - m3 - (m1 - m2) - 2400001) h1 (1 # 2)).
    rewrite !inject_Z_minus, inject_Z_plus in K. change (inject_Z 2400001) with 2400001%Q in K.
    specialize (K ltac:(lra) ltac:(lra) ltac:(lra)).
    assert (K2 : (inject_Z (J + j2i - m3 - (m1 - m2) - 2400001) == 0)%Q) by (rewrite K; reflexivity).
    rewrite !inject_Z_minus, inject_Z_plus in K2. change (inject_Z 2400001) with 2400001%Q in K2. lra. }
  assert (I1 : py_int (h1 * 86400) = 43200) by (rewrite H1; reflexivity). rewrite I1.
  pose proof (py_int_pos_spec (h2 * 86400) ltac:(lra)) as P2. set (i2 := py_int (h2 * 86400)) in *.
  assert (SUM : (inject_Z m4 + (1 # 2) + h2 == inject_Z D + (inject_Z S + F) / 86400)%Q) by lra.
  assert (T : (inject_Z m4 * 86400 + 43200 + h2 * 86400 == inject_Z D * 86400 + inject_Z S + F)%Q).
  { setoid_replace (inject_Z D * 86400 + inject_Z S + F)%Q with ((inject_Z D + (inject_Z S + F) / 86400) * 86400)%Q by field.
    rewrite <- SUM. ring. }
  assert (K : m4 * 86400 + 43200 + i2 = D * 86400 + S).
  { assert (m4 * 86400 + 43200 + i2 < D * 86400 + S + 1) by (apply injZ_lt; rewrite !inject_Z_plus, !inject_Z_mult, inj1; change (inject_Z 86400) with 86400%Q; change (inject_Z 43200) with 43200%Q; lra).
    assert (D * 86400 + S < m4 * 86400 + 43200 + i2 + 1) by (apply injZ_lt; rewrite !inject_Z_plus, !inject_Z_mult, inj1; change (inject_Z 86400) with 86400%Q; change (inject_Z 43200) with 43200%Q; lra). lia. }
  assert (KQ : (inject_Z m4 * 86400 + 43200 + inject_Z i2 == inject_Z D * 86400 + inject_Z S)%Q).
  { assert (X : (inject_Z (m4 * 86400 + 43200 + i2) == inject_Z (D * 86400 + S))%Q) by (rewrite K; reflexivity).
    rewrite !inject_Z_plus, !inject_Z_mult in X. exact X. }
  assert (I2 : 0 <= i2 < 86400). { split; [|apply injZ_lt; change (inject_Z 86400) with 86400%Q; lra].
    assert (-1 < i2) by (apply injZ_lt; change (inject_Z (-1)) with (-1)%Q; lra). lia. }
  change (inject_Z 43200) with 43200%Q.
  assert (FF : (h1 * 86400 - 43200 + (h2 * 86400 - inject_Z i2) == F)%Q) by (clear - H1 T KQ; lra).
  clearbody i2. clear - K I2 HS FF. destruct (86400 <? 43200 + i2) eqn:E; intro H;
    apply pair_equal_spec in H; destruct H as [H <-]; apply pair_equal_spec in H; destruct H as [<- <-]; (split; [exact FF|]).
  - destruct (S =? 0) eqn:ES; split; lia.
  - destruct (S =? 0) eqn:ES; split; lia.
Qed.

Lemma from_mjd_mpm_ok : forall acc mjd mpm, 0 <= mpm < 86400000 -> leap acc (mjd - 40587) = 0 ->
  (from_mjd_mpm acc mjd mpm == tai acc (inject_Z ((mjd - 40587) * 86400) + inject_Z mpm / 1000))%Q.
Proof.
  intros acc mjd mpm HM HL. set (d := mjd - 40587) in *.
  assert (Q : (inject_Z mpm == 1000 * inject_Z (mpm / 1000) + inject_Z (mpm mod 1000))%Q).
  { assert (X : (inject_Z mpm == inject_Z (1000 * (mpm / 1000) + mpm mod 1000))%Q) by (rewrite <- Z.div_mod by lia; reflexivity).
    rewrite X, inject_Z_plus, inject_Z_mult. reflexivity. }
  assert (B1 : 0 <= mpm / 1000 < 86400) by (split; [apply Z.div_pos|apply Z.div_lt_upper_bound]; lia).
  assert (B2 : 0 <= mpm mod 1000 < 1000) by (apply Z.mod_pos_bound; lia).
  destruct B1 as [B1 B1']. destruct B2 as [B2 B2']. assert (B3 : mpm / 1000 <= 86399) by lia.
  apply injZ_le in B1, B2, B3. apply injZ_lt in B2'. change (inject_Z 0) with 0%Q in *. change (inject_Z 1000) with 1000%Q in *. change (inject_Z 86399) with 86399%Q in *.
  assert (D : forall x, (0 <= x < 86400)%Q -> day_of (inject_Z (d * 86400) + x) = d).
  { intros x Hx. apply floor_eq.
    - apply Qle_shift_div_l; [reflexivity|]. rewrite inject_Z_mult. change (inject_Z 86400) with 86400%Q. lra.
    - apply Qlt_shift_div_r; [reflexivity|]. rewrite inject_Z_mult. change (inject_Z 86400) with 86400%Q. lra. }
  unfold from_mjd_mpm, tai. fold d. rewrite inject_Z_plus.
  assert (E : (inject_Z mpm / 1000 == inject_Z (mpm / 1000) + inject_Z (mpm mod 1000) / 1000)%Q) by (rewrite Q; field).
  set (g := (inject_Z (mpm mod 1000) / 1000)%Q) in *.
  assert (0 <= g)%Q by (unfold g; apply Qle_shift_div_l; lra). assert (g < 1)%Q by (unfold g; apply Qlt_shift_div_r; lra).
  rewrite !D by (rewrite ?E; lra). rewrite HL, E. change (inject_Z 0) with 0%Q. ring.
Qed.
