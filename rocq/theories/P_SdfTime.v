(** Proofs about durations. *)
From Coq Require Import Ascii String.
From Coq Require Import List ZArith Bool QArith Qround Qabs Qpower Lqa Lia.
From Verif Require Import M_SdfTime P_Num P_Str P_Bar P_Sdf P_SdfBack P_Flt.
Import ListNotations.
Open Scope Z_scope.
Ltac Zify.zify_post_hook ::= Z.div_mod_to_equations.

(** ** Errors *)
Definition u : Q := (1 # 9007199254740992)%Q.
Lemma u_pos : (0 < u)%Q. Proof. reflexivity. Qed.
Lemma fl_close : forall x B, (Qabs x <= B -> Qabs (fl x - x) <= B * u)%Q.
Proof.
  intros x B H. eapply Qle_trans; [apply fl_err|]. change (1 # 2 ^ 53)%Q with u. apply Qmult_le_compat_r; auto. discriminate.
Qed.
Lemma fl_between : forall x B, (0 <= x -> x <= B -> x - B * u <= fl x /\ fl x <= x + B * u)%Q.
Proof.
  intros x B H L. pose proof (fl_close x B) as C. rewrite (Qabs_pos x H) in C. specialize (C L). apply Qabs_Qle_condition in C. split; lra.
Qed.
Lemma fl_ge : forall x z, (Z.abs z <= 2 ^ 53 -> (inject_Z z <= x)%Q -> (inject_Z z <= fl x)%Q).
Proof. intros x z Z H. rewrite <- (fl_int z) by auto. apply fl_mono. auto. Qed.
Lemma fl_le : forall x z, (Z.abs z <= 2 ^ 53 -> (x <= inject_Z z)%Q -> (fl x <= inject_Z z)%Q).
Proof. intros x z Z H. rewrite <- (fl_int z) by auto. apply fl_mono. auto. Qed.
Lemma half_even_close : forall q k, (Qabs (q - inject_Z k) < 1 # 2)%Q -> half_even q = k.
Proof.
  intros q k H. pose proof (half_even_near q) as N. set (h := half_even q) in *. clearbody h. apply Qabs_Qlt_condition in H. apply Qabs_Qle_condition in N.
  assert (A : (inject_Z h < inject_Z (k + 1))%Q) by (rewrite inject_Z_plus; change (inject_Z 1) with 1%Q; lra).
  assert (B : (inject_Z k < inject_Z (h + 1))%Q) by (rewrite inject_Z_plus; change (inject_Z 1) with 1%Q; lra). rewrite <- Zlt_Qlt in A, B. lia.
Qed.
Lemma inj_nonneg : forall z, 0 <= z -> (0 <= inject_Z z)%Q. Proof. intros z H. change 0%Q with (inject_Z 0). rewrite <- Zle_Qle. auto. Qed.

(** Whole milliseconds survive the way through floating-point seconds. *)
Lemma ms_back : forall sec ms, 0 <= sec -> 0 <= ms < 1000 -> sec <= 2 ^ 40 ->
  to_ms (fl (fl (inject_Z sec) + fl (inject_Z ms / 1000)))%Q = 1000 * sec + ms.
Proof.
  intros sec ms S M L. unfold to_ms. rewrite (fl_int sec) by lia. pose proof u_pos as U.
  assert (M0 : (0 <= inject_Z ms)%Q) by (apply inj_nonneg; lia). assert (M1 : (inject_Z ms <= 999)%Q) by (change 999%Q with (inject_Z 999); rewrite <- Zle_Qle; lia).
  assert (S0 : (0 <= inject_Z sec)%Q) by (apply inj_nonneg; lia). assert (S1 : (inject_Z sec <= inject_Z (2 ^ 40))%Q) by (rewrite <- Zle_Qle; lia). change (inject_Z (2 ^ 40)) with 1099511627776%Q in S1.
  assert (D0 : (0 <= inject_Z ms / 1000)%Q) by (unfold Qdiv; change (/ 1000)%Q with (1 # 1000)%Q; lra).
  assert (D1 : (inject_Z ms / 1000 <= 1)%Q) by (unfold Qdiv; change (/ 1000)%Q with (1 # 1000)%Q; lra).
  destruct (fl_between (inject_Z ms / 1000) 1 D0 D1) as [A1 A2]. pose proof (fl_ge (inject_Z ms / 1000) 0 ltac:(lia) D0) as A3. change (inject_Z 0) with 0%Q in A3.
  set (m := fl (inject_Z ms / 1000)) in *. clearbody m.
  assert (E : (inject_Z ms / 1000 == (1 # 1000) * inject_Z ms)%Q) by field. rewrite E in *. clear E D0 D1.
  unfold u in *.
  destruct (fl_between (inject_Z sec + m) 1099511627780) as [B1 B2]; [lra|lra|]. pose proof (fl_ge (inject_Z sec + m) 0 ltac:(lia) ltac:(change (inject_Z 0) with 0%Q; lra)) as B3. change (inject_Z 0) with 0%Q in B3. set (x := fl (inject_Z sec + m)) in *. clearbody x. unfold u in *.
  destruct (fl_between (x * 1000) 1099511627790000) as [C1 C2]; [lra|lra|]. set (y := fl (x * 1000)) in *. clearbody y. unfold u in *.
  apply py_round_near. rewrite inject_Z_plus, inject_Z_mult. change (inject_Z 1000) with 1000%Q. apply Qabs_Qlt_condition. split; lra.
Qed.

(** ** A duration as text *)
(** hours, minutes and seconds, separated by ':', whatever their texts are. *)
Lemma set_duration_spec : forall th tm ts h m q, ~ In 58 th -> ~ In 58 tm -> ~ In 58 ts -> parse_int th = Some h -> parse_int tm = Some m -> parse_float ts = Some q ->
  0 <= h -> 0 <= m -> (0 <= q)%Q -> (inject_Z (3600 * h + 60 * m) + q <= inject_Z (2 ^ 30))%Q ->
  exists k, set_duration (th ++ 58 :: tm ++ 58 :: ts) = inr k /\ (Qabs (inject_Z k - 1000 * (inject_Z (3600 * h + 60 * m) + q)) <= (1 # 2) + (1 # 4096))%Q.
Proof.
  intros th tm ts h m q Nh Nm Ns Ph Pm Ps H0 M0 Q0 T. unfold set_duration. rewrite (split_app 58 th), (split_app 58 tm), (split_none 58 ts) by auto. cbn [rev app hd field nth_error].
  unfold py_float. rewrite Ps. cbn [option_map]. unfold field. cbn [nth_error]. rewrite Pm, Ph. cbv beta iota zeta. pose proof u_pos as U.
  set (W := 3600 * h + 60 * m) in *. assert (W0 : 0 <= W) by (unfold W; lia). pose proof (inj_nonneg W W0) as W0'. change (inject_Z (2 ^ 30)) with 1073741824%Q in T.
  assert (Q1 : (q <= 1073741824)%Q) by lra. destruct (fl_between q 1073741824 Q0 Q1) as [A1 A2].
  pose proof (fl_ge q 0 ltac:(lia) Q0) as A3. change (inject_Z 0) with 0%Q in A3. pose proof (fl_in q) as A4. set (s := fl q) in *. clearbody s.
  rewrite py_int_floor by auto. destruct (floor_spec s) as [F1 F2]. pose proof (F53_frac s A4 A3) as A5. set (i := Qfloor s) in *.
  assert (I0 : 0 <= i). { change 0 with (Qfloor 0%Q). apply Qfloor_resp_le. auto. } clearbody i.
  assert (Ef : (fl (s - inject_Z i) == s - inject_Z i)%Q) by (apply fl_exact; auto).
  assert (Em : py_round (fl (fl (s - inject_Z i) * 1000)%Q) = py_round (fl ((s - inject_Z i) * 1000)%Q)) by (apply py_round_compat; rewrite Ef; reflexivity). rewrite Em. clear Em Ef.
  destruct (fl_between ((s - inject_Z i) * 1000) 1000) as [B1 B2]; [lra|lra|].
  pose proof (fl_ge ((s - inject_Z i) * 1000) 0 ltac:(lia) ltac:(change (inject_Z 0) with 0%Q; lra)) as B3. pose proof (fl_le ((s - inject_Z i) * 1000) 1000 ltac:(lia) ltac:(change (inject_Z 1000) with 1000%Q; lra)) as B4.
  set (f := fl ((s - inject_Z i) * 1000)) in *. clearbody f. pose proof (py_round_spec f) as R. apply Qabs_Qle_condition in R. set (ms := py_round f) in *. clearbody ms.
  change (inject_Z 0) with 0%Q in B3. change (inject_Z 1000) with 1000%Q in B4.
  assert (MS : 0 <= ms <= 1000).
  { split; [assert (X : (inject_Z (-1) < inject_Z ms)%Q) by (change (inject_Z (-1)) with (- (1))%Q; lra)|assert (X : (inject_Z ms < inject_Z 1001)%Q) by (change (inject_Z 1001) with 1001%Q; lra)]; rewrite <- Zlt_Qlt in X; lia. }
  unfold u in *.
  assert (I1 : i <= 2 ^ 31). { rewrite Zle_Qle. change (inject_Z (2 ^ 31)) with 2147483648%Q. lra. }
  assert (W1 : W <= 2 ^ 31). { rewrite Zle_Qle. change (inject_Z (2 ^ 31)) with 2147483648%Q. lra. }
  replace (h * 3600 + m * 60 + i) with (W + i) by (unfold W; lia).
  assert (K : forall sec ms', (sec, ms') = (if 1000 <=? ms then (W + i + 1, ms - 1000) else (W + i, ms)) -> 0 <= sec /\ 0 <= ms' < 1000 /\ sec <= 2 ^ 40 /\ 1000 * sec + ms' = 1000 * (W + i) + ms).
  { intros sec ms' E. destruct (Z.leb_spec 1000 ms); inversion E; subst; lia. }
  destruct (if 1000 <=? ms then _ else _) as [sec ms']. destruct (K sec ms' eq_refl) as (K1 & K2 & K3 & K4). exists (1000 * (W + i) + ms). split.
  - f_equal. rewrite <- K4. apply ms_back; auto.
  - rewrite inject_Z_plus, inject_Z_mult, inject_Z_plus. change (inject_Z 1000) with 1000%Q. apply Qabs_Qle_condition. split; lra.
Qed.
(** Exactly, when it is a whole number of milliseconds. *)
Lemma set_duration_exact : forall th tm ts h m q k, ~ In 58 th -> ~ In 58 tm -> ~ In 58 ts -> parse_int th = Some h -> parse_int tm = Some m -> parse_float ts = Some q ->
  0 <= h -> 0 <= m -> (0 <= q)%Q -> (inject_Z (3600 * h + 60 * m) + q <= inject_Z (2 ^ 30))%Q -> (1000 * (inject_Z (3600 * h + 60 * m) + q) == inject_Z k)%Q ->
  set_duration (th ++ 58 :: tm ++ 58 :: ts) = inr k.
Proof.
  intros th tm ts h m q k Nh Nm Ns Ph Pm Ps H0 M0 Q0 T E. destruct (set_duration_spec th tm ts h m q) as (k' & K & D); auto. rewrite K. f_equal. rewrite E in D.
  apply Qabs_Qle_condition in D. assert (A : (inject_Z k' < inject_Z (k + 1))%Q) by (rewrite inject_Z_plus; change (inject_Z 1) with 1%Q; lra).
  assert (B : (inject_Z k < inject_Z (k' + 1))%Q) by (rewrite inject_Z_plus; change (inject_Z 1) with 1%Q; lra). rewrite <- Zlt_Qlt in A, B. lia.
Qed.

(** ** The texts that are written *)
Lemma rep_digits : forall n, Forall (fun c => is_digit c = true) (rep 48 n).
Proof. intro n. apply Forall_forall. intros c C. apply repeat_spec in C. subst. reflexivity. Qed.
Lemma digits_no : forall s c, Forall (fun c => is_digit c = true) s -> is_digit c = false -> ~ In c s.
Proof. intros s c F D I. rewrite Forall_forall in F. apply F in I. congruence. Qed.
Lemma parse_int_digits : forall s, Forall (fun c => is_digit c = true) s -> s <> [] -> parse_int s = Some (dval s).
Proof.
  intros s F N. unfold parse_int. rewrite strip_id by (apply digits_trimmed; auto). destruct s as [|c r]; [congruence|]. inversion F; subst.
  destruct (Z.eqb_spec c 45); [subst; discriminate|]. destruct (Z.eqb_spec c 43); [subst; discriminate|]. apply (parse_digits_dval (c :: r) 0 false); auto.
Qed.
Lemma dval_rep : forall n s, dval (rep 48 n ++ s) = dval s.
Proof. intros n s. rewrite dval_app. unfold rep. rewrite dval_zeros. lia. Qed.
Lemma fmt_02i_text : forall n, 0 <= n -> parse_int (fmt_02i n) = Some n /\ ~ In 58 (fmt_02i n).
Proof.
  intros n H. unfold fmt_02i. set (k := 2 - _). assert (F : Forall (fun c => is_digit c = true) (rep 48 k ++ dec n)) by (apply Forall_app; split; [apply rep_digits|apply dec_pos_digits; auto]).
  split; [|apply digits_no; auto]. rewrite parse_int_digits; auto.
  - rewrite dval_rep, dec_dval by auto. reflexivity.
  - pose proof (dec_ne n). intro E. apply app_eq_nil in E. destruct E. congruence.
Qed.
Lemma fmt_06_3f_text : forall q, (0 <= q)%Q -> parse_float (fmt_06_3f q) = Some (half_even (q * 1000) # 1000)%Q /\ ~ In 58 (fmt_06_3f q).
Proof.
  intros q H. unfold fmt_06_3f. set (k := 6 - _). destruct (ufix_chars 3 q ltac:(lia) H) as (F & c & r & U & D).
  assert (G : Forall (fun c => is_digit c = true \/ c = 46) (rep 48 k ++ ufix 3 q)). { apply Forall_app. split; auto. eapply Forall_impl; [|apply rep_digits]. auto. }
  split.
  - unfold parse_float. rewrite strip_id.
    2:{ apply all_trimmed. eapply Forall_impl; [|exact G]. intros x [X | ->]; [apply digit_not_space; auto|reflexivity]. }
    assert (P : parse_ufix (rep 48 k ++ ufix 3 q) = Some (half_even (q * 1000) # 1000)%Q).
    { pose proof (ufix_parse 3 q ltac:(lia) H) as P. unfold parse_ufix in *.
      assert (S : exists a b, ufix 3 q = a ++ 46 :: b /\ ~ In 46 a /\ Forall (fun c => is_digit c = true) a /\ Forall (fun c => is_digit c = true) b /\ a <> []).
      { unfold ufix. change (10 ^ Z.of_nat 3) with 1000. cbv zeta. eexists _, _. split; [reflexivity|]. set (t := half_even (q * inject_Z 1000)).
        assert (T : 0 <= t). { apply half_even_nonneg. change (inject_Z 1000) with 1000%Q. lra. }
        split; [apply dec_no; [reflexivity|lia]|]. split; [apply dec_pos_digits; apply Z.div_pos; lia|]. split; [|apply dec_ne].
        destruct (zpad_spec 3 (t mod 1000)) as (_ & Z & _); [lia|change (10 ^ Z.of_nat 3) with 1000; apply Z.mod_pos_bound; lia|auto]. }
      destruct S as (a & b & S & Sa & Fa & Fb & Ne). rewrite S in *. rewrite app_assoc. rewrite split1_found.
      2:{ intro I. apply in_app_iff in I. destruct I as [I|I]; [revert I; apply digits_no; [apply rep_digits|reflexivity]|auto]. }
      rewrite split1_found in P by auto. rewrite !forallb_digits in * by (auto; apply Forall_app; split; auto; apply rep_digits). cbn [andb] in *.
      assert (E1 : (match (rep 48 k ++ a) ++ b with [] => true | _ => false end) = false). { destruct ((rep 48 k ++ a) ++ b) eqn:E; auto. apply app_eq_nil in E. destruct E as [E _]. apply app_eq_nil in E. destruct E. congruence. }
      assert (E2 : (match a ++ b with [] => true | _ => false end) = false). { destruct (a ++ b) eqn:E; auto. apply app_eq_nil in E. destruct E. congruence. }
      rewrite E1. rewrite E2 in P. cbn [negb] in *. rewrite parse_digits_dval in * by (auto; repeat (apply Forall_app; split); auto; apply rep_digits).
      fold (dval ((rep 48 k ++ a) ++ b)). fold (dval (a ++ b)) in P. rewrite <- app_assoc, dval_rep. exact P. }
    destruct (rep 48 k ++ ufix 3 q) as [|c' r'] eqn:E; [rewrite U in E; destruct (rep 48 k); discriminate|].
    assert (C : is_digit c' = true). { destruct (rep 48 k) as [|x y] eqn:R; [rewrite U in E; cbn in E; congruence|]. cbn in E. inversion E; subst. pose proof (rep_digits k) as RD. rewrite R in RD. inversion RD; auto. }
    destruct (Z.eqb_spec c' 45); [subst; discriminate|]. destruct (Z.eqb_spec c' 43); [subst; discriminate|]. exact P.
  - intro I. rewrite Forall_forall in G. destruct (G _ I); discriminate.
Qed.
Lemma duration_text : forall h m q dur, 0 <= h -> 0 <= m < 60 -> (0 <= q)%Q -> dur <= 10 ^ 12 -> half_even (q * 1000) = dur - 3600000 * h - 60000 * m ->
  0 <= dur - 3600000 * h - 60000 * m -> forall th, parse_int th = Some h -> ~ In 58 th ->
  set_duration (th ++ 58 :: fmt_02i m ++ 58 :: fmt_06_3f q) = inr dur.
Proof.
  intros h m q dur H M Q D E R th Ph Nh. destruct (fmt_02i_text m ltac:(lia)) as [Pm Nm]. destruct (fmt_06_3f_text q Q) as [Ps Ns]. rewrite E in Ps.
  assert (V : (dur - 3600000 * h - 60000 * m # 1000 == (1 # 1000) * inject_Z (dur - 3600000 * h - 60000 * m))%Q) by (rewrite Qmake_Qdiv; field).
  apply (set_duration_exact _ _ _ h m (dur - 3600000 * h - 60000 * m # 1000)); auto; try lia.
  - rewrite V. pose proof (inj_nonneg _ R). lra.
  - rewrite V. unfold Z.sub. rewrite !inject_Z_plus, !inject_Z_opp, !inject_Z_mult. change (inject_Z (2 ^ 30)) with 1073741824%Q. change (inject_Z 3600000) with 3600000%Q. change (inject_Z 60000) with 60000%Q. change (inject_Z 3600) with 3600%Q. change (inject_Z 60) with 60%Q.
    assert (X : (inject_Z dur <= 1000000000000)%Q) by (change 1000000000000%Q with (inject_Z (10 ^ 12)); rewrite <- Zle_Qle; lia). lra.
  - rewrite V. unfold Z.sub. rewrite !inject_Z_plus, !inject_Z_opp, !inject_Z_mult. change (inject_Z 3600000) with 3600000%Q. change (inject_Z 60000) with 60000%Q. change (inject_Z 3600) with 3600%Q. change (inject_Z 60) with 60%Q. ring.
Qed.

Lemma get_set_duration : forall dur, 0 <= dur <= 10 ^ 12 -> set_duration (get_duration dur) = inr dur.
Proof.
  intros dur D. unfold get_duration. cbv zeta. set (r := dur mod 1000). set (s := dur / 1000 mod 60). assert (R : 0 <= r < 1000) by (unfold r; lia). assert (S : 0 <= s < 60) by (unfold s; lia).
  assert (ED : dur - 3600000 * (dur / 1000 / 3600) - 60000 * (dur / 1000 / 60 mod 60) = 1000 * s + r) by (unfold s, r; lia).
  assert (R0 : (0 <= inject_Z r)%Q) by (apply inj_nonneg; lia). assert (R1 : (inject_Z r <= 999)%Q) by (change 999%Q with (inject_Z 999); rewrite <- Zle_Qle; lia).
  assert (S0 : (0 <= inject_Z s)%Q) by (apply inj_nonneg; lia). assert (S1 : (inject_Z s <= 59)%Q) by (change 59%Q with (inject_Z 59); rewrite <- Zle_Qle; lia).
  assert (D0 : (0 <= inject_Z r / 1000)%Q) by (unfold Qdiv; change (/ 1000)%Q with (1 # 1000)%Q; lra).
  assert (D1 : (inject_Z r / 1000 <= 1)%Q) by (unfold Qdiv; change (/ 1000)%Q with (1 # 1000)%Q; lra).
  destruct (fl_between (inject_Z r / 1000) 1 D0 D1) as [A1 A2]. pose proof (fl_ge (inject_Z r / 1000) 0 ltac:(lia) D0) as A3. change (inject_Z 0) with 0%Q in A3.
  set (m := fl (inject_Z r / 1000)) in *. clearbody m. assert (E : (inject_Z r / 1000 == (1 # 1000) * inject_Z r)%Q) by field. rewrite E in *. clear E D0 D1. unfold u in *.
  destruct (fl_between (inject_Z s + m) 61) as [B1 B2]; [lra|lra|]. pose proof (fl_ge (inject_Z s + m) 0 ltac:(lia) ltac:(change (inject_Z 0) with 0%Q; lra)) as B3. change (inject_Z 0) with 0%Q in B3.
  set (x := fl (inject_Z s + m)) in *. clearbody x. unfold u in *.
  apply (duration_text (dur / 1000 / 3600) (dur / 1000 / 60 mod 60)); auto; try lia.
  - rewrite ED. apply half_even_close. rewrite inject_Z_plus, inject_Z_mult. change (inject_Z 1000) with 1000%Q. apply Qabs_Qlt_condition. split; lra.
  - apply parse_dec.
  - apply dec_no; [reflexivity|lia].
Qed.
Lemma dur_string_back : forall dur, 0 <= dur <= 10 ^ 12 -> set_duration (dur_string dur) = inr dur.
Proof.
  intros dur D. unfold dur_string. cbv zeta. set (h := dur / 3600000). set (m := dur / 60000 mod 60). set (r := dur mod 60000).
  assert (H : 0 <= h) by (unfold h; lia). assert (M : 0 <= m < 60) by (unfold m; lia). assert (R : 0 <= r < 60000) by (unfold r; lia).
  assert (ED : dur = 3600000 * h + 60000 * m + r) by (unfold h, m, r; lia). clearbody h m r.
  assert (D0 : (0 <= inject_Z dur)%Q) by (apply inj_nonneg; lia). assert (D1 : (inject_Z dur <= 1000000000000)%Q) by (change 1000000000000%Q with (inject_Z (10 ^ 12)); rewrite <- Zle_Qle; lia).
  assert (E0 : (fl (fl (inject_Z dur) / 1000) == fl (inject_Z dur * (1 # 1000)))%Q). { rewrite (fl_int dur) by lia. apply fl_comp. field. }
  assert (C : exists d, d = fl (fl (inject_Z dur) / 1000)%Q /\ (d == fl (inject_Z dur * (1 # 1000)))%Q) by eauto. destruct C as (d & Ed & Cd). rewrite <- Ed. clear Ed E0.
  destruct (fl_between (inject_Z dur * (1 # 1000)) 1000000000) as [A1 A2]; [lra|lra|]. rewrite <- Cd in A1, A2. unfold u in *.
  assert (Low : (inject_Z (3600 * h + 60 * m) <= d)%Q).
  { rewrite Cd. apply fl_ge; [lia|]. rewrite ED, !inject_Z_plus, !inject_Z_mult. change (inject_Z 3600000) with 3600000%Q. change (inject_Z 60000) with 60000%Q. change (inject_Z 3600) with 3600%Q. change (inject_Z 60) with 60%Q.
    pose proof (inj_nonneg r ltac:(lia)). lra. }
  clear Cd. rewrite ED, !inject_Z_plus, !inject_Z_mult in A1, A2, D0, D1. rewrite inject_Z_plus, !inject_Z_mult in Low.
  change (inject_Z 3600000) with 3600000%Q in *. change (inject_Z 60000) with 60000%Q in *. change (inject_Z 3600) with 3600%Q in *. change (inject_Z 60) with 60%Q in *.
  assert (H0 : (0 <= inject_Z h)%Q) by (apply inj_nonneg; auto). assert (M0 : (0 <= inject_Z m)%Q) by (apply inj_nonneg; lia). assert (R0 : (0 <= inject_Z r)%Q) by (apply inj_nonneg; lia).
  assert (M1 : (inject_Z m <= 59)%Q) by (change 59%Q with (inject_Z 59); rewrite <- Zle_Qle; lia). assert (R1 : (inject_Z r <= 59999)%Q) by (change 59999%Q with (inject_Z 59999); rewrite <- Zle_Qle; lia).
  assert (Eh : trunc (fl (d / 3600)) = h).
  { assert (E : (d / 3600 == d * (1 # 3600))%Q) by field. unfold trunc. rewrite (Qfloor_comp _ _ (fl_comp _ _ E)). apply floor_eq.
    - apply fl_ge; [lia|lra].
    - destruct (fl_between (d * (1 # 3600)) 1000000001) as [B1 B2]; [lra|lra|]. unfold u in B2. lra. }
  assert (Fh : Qfloor (d / inject_Z 3600) = h). { assert (E : (d / inject_Z 3600 == d * (1 # 3600))%Q) by (change (inject_Z 3600) with 3600%Q; field). rewrite (Qfloor_comp _ _ E). apply floor_eq; lra. }
  assert (Fm : Qfloor (d / inject_Z 60) = 60 * h + m). { assert (E : (d / inject_Z 60 == d * (1 # 60))%Q) by (change (inject_Z 60) with 60%Q; field). rewrite (Qfloor_comp _ _ E). apply floor_eq; rewrite inject_Z_plus, inject_Z_mult; change (inject_Z 60) with 60%Q; lra. }
  assert (Em : trunc (fl (fmod d 3600 / 60)) = m).
  { unfold fmod. rewrite Fh. assert (E : ((d - inject_Z (3600 * h)) / 60 == (d - 3600 * inject_Z h) * (1 # 60))%Q) by (rewrite inject_Z_mult; change (inject_Z 3600) with 3600%Q; field). unfold trunc. rewrite (Qfloor_comp _ _ (fl_comp _ _ E)). apply floor_eq.
    - apply fl_ge; [lia|lra].
    - destruct (fl_between ((d - 3600 * inject_Z h) * (1 # 60)) 61) as [B1 B2]; [lra|lra|]. unfold u in B2. lra. }
  rewrite Eh, Em. destruct (fmt_02i_text h H) as [Ph Nh].
  assert (Ef : (fmod d 60 == d - 3600 * inject_Z h - 60 * inject_Z m)%Q). { unfold fmod. rewrite Fm, inject_Z_mult, inject_Z_plus, inject_Z_mult. change (inject_Z 60) with 60%Q. ring. }
  apply (duration_text h m); auto; try lia.
  - rewrite Ef. lra.
  - replace (dur - 3600000 * h - 60000 * m) with r by lia. apply half_even_close. rewrite Ef. apply Qabs_Qlt_condition. split; lra.
Qed.
