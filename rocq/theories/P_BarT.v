(** Theorems about progress bars. *)
From Coq Require Import List ZArith Bool Lia QArith Qround Qabs Lqa.
From Verif Require Import M_Str M_Bar S_Bar P_Str P_Bar M_Flt P_Flt.
Import ListNotations.
Open Scope Z_scope.

Lemma stage_len : forall sym w v, 0 <= w -> 0 <= v <= 5 * w -> Z.of_nat (length (stage sym w v)) = w.
Proof.
  intros sym w v W V. unfold stage. destruct (Z.ltb_spec v (5 * w)).
  - rewrite app_length. cbn [length]. rewrite !repeat_length. assert (0 <= v / 5) by (apply Z.div_pos; lia). assert (v / 5 < w) by (apply Z.div_lt_upper_bound; lia). lia.
  - rewrite repeat_length. lia.
Qed.
(** The stage drawn. *)
Definition stage_of (rnd : Q -> Q) (a m w : Z) : Z := let n := marks rnd a m w in if trunc n <? w then 5 * trunc n + turn rnd n else 5 * w.
Lemma bar_stage : forall F rnd, doubles F rnd -> forall cap sym a m w, 0 <= a <= m -> 0 < m -> 0 <= w <= 2 ^ 53 ->
  bar rnd cap sym a m w = inr (stage sym w (stage_of rnd a m w)) /\ 0 <= stage_of rnd a m w <= 5 * w.
Proof.
  intros F rnd D cap sym a m w A M W. destruct (bar_shape F rnd D cap sym a m w A M W) as [T B]. rewrite B.
  unfold stage_of. destruct (marks_bounds F rnd D a m w A M W) as [N0 N1].
  pose proof (turn_bounds F rnd D _ (marks_F F rnd D a m w) N0) as TB. set (n := marks rnd a m w) in *. destruct (Z.ltb_spec (trunc n) w) as [L|L].
  - split; [|lia]. unfold stage. destruct (Z.ltb_spec (5 * trunc n + turn rnd n) (5 * w)); [|lia].
    replace ((5 * trunc n + turn rnd n) / 5) with (trunc n) by (apply Z.div_unique with (r := turn rnd n); lia).
    replace ((5 * trunc n + turn rnd n) mod 5) with (turn rnd n) by (apply Z.mod_unique with (q := trunc n); lia). reflexivity.
  - split; [|lia]. unfold stage. destruct (Z.ltb_spec (5 * w) (5 * w)); [lia|]. reflexivity.
Qed.
Lemma percent_len : forall F rnd, doubles F rnd -> forall a m, 0 <= a <= m -> 0 < m -> Z.of_nat (length (percent rnd a m)) = 6.
Proof.
  intros F rnd D a m A M. unfold percent. rewrite len_app. cbn [length]. destruct (fraction_bounds F rnd D a m A M) as [F0 F1].
  assert (L : (rnd (fraction rnd a m * 100) <= inject_Z 100)%Q) by (apply (rnd_le F rnd D); [lia|]; change (inject_Z 100) with 100%Q; lra).
  rewrite fmt_len; [lia| |].
  - apply (rnd_nonneg F rnd D). lra.
  - change (inject_Z 9999) with 9999%Q. change (inject_Z 100) with 100%Q in L. lra.
Qed.

(** With and without percentage, for every amount from 0 to max the text is '[', a bar, ']' (and a percentage of six
    characters), together exactly [span] characters. *)
Lemma C35_width_proof : forall F rnd, doubles F rnd -> forall sym a m span, 0 <= a <= m -> 0 < m -> span <= 2 ^ 53 ->
  (9 <= span -> exists b p, show rnd true sym a m span = inr (91 :: b ++ [93; 32] ++ p) /\ bar_of sym (span - 9) b /\ Z.of_nat (length p) = 6 /\
     Z.of_nat (length (91 :: b ++ [93; 32] ++ p)) = span) /\
  (2 <= span -> exists b, show rnd false sym a m span = inr (91 :: b ++ [93]) /\ bar_of sym (span - 2) b /\ Z.of_nat (length (91 :: b ++ [93])) = span).
Proof.
  intros F rnd D sym a m span A M W.
  assert (BO : forall w v, 0 <= w -> 0 <= v <= 5 * w -> bar_of sym w (stage sym w v)).
  { intros w v W0 V. unfold bar_of, stage. destruct (Z.ltb_spec v (5 * w)); [right|left; auto]. exists (v / 5), (nth (Z.to_nat (v mod 5)) [45; 92; 124; 47; sym] 0).
    split; [split; [apply Z.div_pos; lia|apply Z.div_lt_upper_bound; lia]|]. split; [|reflexivity]. apply nth_In. cbn. pose proof (Z.mod_pos_bound v 5). lia. }
  split; intro S; unfold show.
  - destruct (bar_stage F rnd D false sym a m (span - 9) A M ltac:(lia)) as [B V]. rewrite B. do 2 eexists. split; [reflexivity|]. split; [apply BO; lia|].
    pose proof (percent_len F rnd D a m A M) as P. split; [exact P|]. rewrite len_cons, !len_app, P, stage_len by lia. cbn [length]. lia.
  - destruct (bar_stage F rnd D false sym a m (span - 2) A M ltac:(lia)) as [B V]. rewrite B. eexists. split; [reflexivity|]. split; [apply BO; lia|].
    rewrite len_cons, !len_app, stage_len by lia. cbn [length]. lia.
Qed.

(** The bar runs through its stages in order as the amount grows, from the first (amount 0) to the complete bar
    (amount max). *)
Lemma C35_monotone_proof : forall F rnd, doubles F rnd -> forall sym m w, 0 < m -> 0 <= w <= 2 ^ 53 -> exists v : Z -> Z,
  (forall cap a, 0 <= a <= m -> bar rnd cap sym a m w = inr (stage sym w (v a)) /\ 0 <= v a <= 5 * w) /\
  (forall a b, 0 <= a <= b -> b <= m -> v a <= v b) /\
  v 0 = 0 /\ v m = 5 * w.
Proof.
  intros F rnd D sym m w M W. exists (fun a => stage_of rnd a m w). split; [|split; [|split]].
  - intros cap a A. apply (bar_stage F); auto.
  - intros a b A B. unfold stage_of. destruct (marks_bounds F rnd D a m w ltac:(lia) M W) as [N0 N1]. destruct (marks_bounds F rnd D b m w ltac:(lia) M W) as [M0 M1].
    pose proof (marks_mono F rnd D a b m w A M ltac:(lia)) as L. pose proof (trunc_mono _ _ L) as T.
    pose proof (turn_bounds F rnd D _ (marks_F F rnd D a m w) N0) as TA. pose proof (turn_bounds F rnd D _ (marks_F F rnd D b m w) M0) as TB.
    destruct (Z.ltb_spec (trunc (marks rnd a m w)) w), (Z.ltb_spec (trunc (marks rnd b m w)) w); try lia.
    destruct (Z.eq_dec (trunc (marks rnd a m w)) (trunc (marks rnd b m w))) as [E|E]; [|lia].
    pose proof (turn_mono F rnd D _ _ (marks_F F rnd D a m w) (marks_F F rnd D b m w) N0 L E). lia.
  - assert (E : (marks rnd 0 m w == inject_Z 0)%Q).
    { unfold marks, fraction. assert (E0 : (rnd (inject_Z 0) / rnd (inject_Z m) == inject_Z 0)%Q) by (rewrite (rnd_int F rnd D 0) by lia; reflexivity).
      pose proof (rnd_is F rnd D _ 0 ltac:(lia) E0) as E1.
      assert (E2 : (rnd (rnd (inject_Z 0) / rnd (inject_Z m)) * inject_Z w == inject_Z 0)%Q) by (rewrite E1; change (inject_Z 0) with 0%Q; ring).
      rewrite (rnd_eq F rnd D _ _ E2). apply (rnd_int F rnd D). lia. }
    unfold stage_of. assert (T : trunc (marks rnd 0 m w) = 0) by (unfold trunc; rewrite E; reflexivity). rewrite T.
    assert (U : turn rnd (marks rnd 0 m w) = 0).
    { unfold turn. rewrite T. assert (E1 : (marks rnd 0 m w - inject_Z 0 == inject_Z 0)%Q) by (rewrite E; reflexivity).
      pose proof (rnd_is F rnd D _ 0 ltac:(lia) E1) as E2.
      assert (E3 : (rnd (marks rnd 0 m w - inject_Z 0) * 5 == inject_Z 0)%Q) by (rewrite E2; reflexivity).
      pose proof (rnd_is F rnd D _ 0 ltac:(lia) E3) as E4. unfold trunc. rewrite E4. reflexivity. }
    rewrite U. destruct (Z.ltb_spec 0 w); lia.
  - assert (E : (marks rnd m m w == inject_Z w)%Q).
    { unfold marks. assert (E0 : (fraction rnd m m * inject_Z w == inject_Z w)%Q) by (rewrite (fraction_full F rnd D m M); ring). rewrite (rnd_eq F rnd D _ _ E0). apply (rnd_int F rnd D). lia. }
    unfold stage_of. assert (T : trunc (marks rnd m m w) = w) by (unfold trunc; rewrite E; apply Qfloor_Z). rewrite T, Z.ltb_irrefl. reflexivity.
Qed.

(** In exact arithmetic the stage is the integer part of 5 w amount / max. *)
Lemma C35_exact_proof : forall cap sym a m w, 0 <= a <= m -> 0 < m -> 0 <= w ->
  bar (fun x => x) cap sym a m w = inr (stage sym w (5 * w * a / m)).
Proof.
  intros cap sym a m w A M W. unfold bar. destruct (Z.eqb_spec m 0); [lia|].
  assert (MQ : (0 < inject_Z m)%Q) by (rewrite <- (Zlt_Qlt 0); lia).
  assert (E : (marks (fun x => x) a m w == inject_Z (a * w) / inject_Z m)%Q) by (unfold marks, fraction; rewrite inject_Z_mult; field; lra).
  assert (T : trunc (marks (fun x => x) a m w) = a * w / m).
  { unfold trunc. rewrite E. unfold Qfloor, Qdiv, Qmult, Qinv, inject_Z. destruct m as [|p|p]; try lia. cbn. rewrite Z.mul_1_r. reflexivity. }
  assert (B : 0 <= a * w / m <= w) by (split; [apply Z.div_pos; lia|apply Z.div_le_upper_bound; nia]).
  rewrite T. replace (if cap then Z.min (a * w / m) w else a * w / m) with (a * w / m) by (destruct cap; lia).
  assert (E5 : 5 * w * a = 5 * (a * w)) by ring. rewrite E5. pose proof (Z.div_mod (a * w) m ltac:(lia)) as DM. pose proof (Z.mod_pos_bound (a * w) m ltac:(lia)) as MB. set (q := a * w / m) in *. set (r := (a * w) mod m) in *.
  assert (R : 5 * (a * w) / m = 5 * q + 5 * r / m) by (rewrite DM; replace (5 * (m * q + r)) with (5 * r + (5 * q) * m) by ring; rewrite Z.div_add by lia; lia).
  assert (RB : 0 <= 5 * r / m < 5) by (split; [apply Z.div_pos; lia|apply Z.div_lt_upper_bound; lia]).
  destruct (Z.ltb_spec q w) as [L|L].
  - assert (K : trunc ((marks (fun x => x) a m w - inject_Z q) * 5)%Q = 5 * r / m).
    { unfold trunc. assert (E2 : ((marks (fun x => x) a m w - inject_Z q) * 5 == inject_Z (5 * r) / inject_Z m)%Q).
      { rewrite E, DM, !inject_Z_mult, inject_Z_plus, inject_Z_mult. change (inject_Z 5) with 5%Q. field. lra. }
      rewrite E2. unfold Qfloor, Qdiv, Qmult, Qinv, inject_Z. destruct m as [|p|p]; try lia. cbn [Qnum Qden]. rewrite Z.mul_1_r. reflexivity. }
    rewrite K. assert (NE : nth_error (rotations sym) (Z.to_nat (5 * r / m)) = Some (nth (Z.to_nat (5 * r / m)) (rotations sym) 0)) by (apply nth_error_nth'; cbn [rotations length]; lia).
    rewrite NE. unfold stage. rewrite R. destruct (Z.ltb_spec (5 * q + 5 * r / m) (5 * w)); [|lia].
    replace ((5 * q + 5 * r / m) / 5) with q by (apply Z.div_unique with (r := 5 * r / m); lia).
    replace ((5 * q + 5 * r / m) mod 5) with (5 * r / m) by (apply Z.mod_unique with (q := q); lia).
    unfold rep. cbn [app]. do 2 f_equal. do 2 f_equal. f_equal. lia.
  - assert (q = w) by lia. unfold stage. rewrite R. destruct (Z.ltb_spec (5 * q + 5 * r / m) (5 * w)); [lia|]. unfold rep. rewrite H. replace (w - w) with 0 by lia. cbn. rewrite app_nil_r. reflexivity.
Qed.

(** ProgressBarPlus adds a time and DownloadBar a rate, and both then have span + 9 characters for every amount from 0
    to max, as long as the time is below 9999 minutes and the rate or size below 999 GB. *)
Lemma time_len : forall F rnd, doubles F rnd -> forall t, (0 <= t)%Q -> (t <= inject_Z 599940)%Q -> Z.of_nat (length (pprint_time rnd t)) = 8.
Proof.
  intros F rnd D t T0 T1. unfold pprint_time. change (inject_Z 599940) with 599940%Q in T1.
  assert (Q0 : (0 <= t / 60)%Q) by (apply Qle_shift_div_l; lra). assert (Q1 : (t / 60 <= inject_Z 9999)%Q) by (apply Qle_shift_div_r; [lra|]; change (inject_Z 9999) with 9999%Q; lra).
  assert (M0 : 0 <= trunc (rnd (t / 60)%Q)) by (apply trunc_ge, (rnd_nonneg F rnd D), Q0).
  assert (M1 : trunc (rnd (t / 60)%Q) <= 9999) by (apply trunc_le, (rnd_le F rnd D); [lia|exact Q1]).
  pose proof (Qfloor_le (t / 60)) as L. pose proof (Qlt_floor (t / 60)) as U. rewrite inject_Z_plus in U. change (inject_Z 1) with 1%Q in U. set (f := inject_Z (Qfloor (t / 60))) in *.
  assert (E : (t == 60 * (t / 60))%Q) by field.
  assert (S0 : 0 <= trunc (t - 60 * f)%Q) by (apply trunc_ge; change (inject_Z 0) with 0%Q; lra).
  assert (S1 : trunc (t - 60 * f)%Q < 60) by (apply trunc_lt; change (inject_Z 60) with 60%Q; lra).
  rewrite len_app, len_cons, len_app. unfold fmt_4i. rewrite pad_len by (apply (dec_len _ 4); [cbn; lia|lia]). unfold fmt_02i. cbv zeta. rewrite len_app.
  pose proof (dec_len (trunc (t - 60 * f)%Q) 2 ltac:(change (10 ^ Z.of_nat 2) with 100; lia) ltac:(lia)). rewrite rep_len by lia. cbn [length]. lia.
Qed.
Lemma rate_len : forall v sl, (0 <= v)%Q -> (v <= inject_Z (999 * 2 ^ 30))%Q -> length sl = 2%nat -> Z.of_nat (length (pprint_rate v sl)) = 9.
Proof.
  intros v sl V0 V1 S. unfold pprint_rate. change (inject_Z 9999) with 9999%Q.
  assert (X : forall u (c : Z) d, (0 < u)%Q -> (v <= (9999 # 10) * u)%Q -> Z.of_nat (length (fmt_5_1f (v / u) ++ [c; d] ++ sl)) = 9).
  { intros u c d U B. rewrite !len_app, S. rewrite fmt_len; [cbn [length]; lia|apply Qle_shift_div_l; lra|].
    change (inject_Z 9999) with 9999%Q. assert (v / u <= 9999 # 10)%Q by (apply Qle_shift_div_r; auto). lra. }
  unfold GB, MB, kB in *. change (inject_Z (1024 * 1024 * 1024)) with 1073741824%Q. change (inject_Z (1024 * 1024)) with 1048576%Q. change (inject_Z 1024) with 1024%Q.
  change (inject_Z (999 * 2 ^ 30)) with 1072668082176%Q in V1.
  destruct (Qle_bool v _) eqn:A; cbn [negb].
  2: { apply X; lra. }
  apply Qle_bool_iff in A. destruct (Qle_bool v ((9 # 10) * 1048576)) eqn:B; cbn [negb].
  2: { apply X; lra. }
  apply Qle_bool_iff in B. destruct (Qle_bool v ((9 # 10) * 1024)) eqn:C; cbn [negb].
  2: { apply X; lra. }
  apply Qle_bool_iff in C. rewrite !len_app, S. rewrite fmt_len; [cbn [length]; lia|auto|]. change (inject_Z 9999) with 9999%Q. lra.
Qed.
Lemma C35_plus_width_proof : forall F rnd, doubles F rnd -> forall sym a m span el, 0 <= a <= m -> 0 < m -> span <= 2 ^ 53 ->
  (forall t, el = Some t -> (0 <= t)%Q /\ (t <= 599940)%Q /\ (inject_Z (m - a) * t <= inject_Z (599940 * a))%Q /\ 599940 * a <= 2 ^ 53) ->
  (9 <= span -> exists s, show_plus rnd true sym a m span el = inr s /\ Z.of_nat (length s) = span + 9) /\
  (2 <= span -> exists s, show_plus rnd false sym a m span el = inr s /\ Z.of_nat (length s) = span + 9).
Proof.
  intros F rnd D sym a m span el A M W T.
  assert (CT : Z.of_nat (length (estimate rnd a m el)) = 8).
  { unfold estimate. destruct el as [t|]; [|reflexivity]. destruct (T t eq_refl) as [T0 [T1 [T2 T3]]]. destruct (Z.eqb_spec a 0); [reflexivity|]. destruct (Z.leb_spec m a); [apply (time_len F); auto|].
    destruct (Qle_bool (1 # 5) t); [|reflexivity].
    assert (A0 : (0 < inject_Z a)%Q) by (rewrite <- (Zlt_Qlt 0); lia). assert (MA : (0 < inject_Z (m - a))%Q) by (rewrite <- (Zlt_Qlt 0); lia).
    assert (R0 : (0 <= rnd (inject_Z (m - a) * t))%Q) by (apply (rnd_nonneg F rnd D); nra).
    assert (R1 : (rnd (inject_Z (m - a) * t) <= inject_Z (599940 * a))%Q) by (apply (rnd_le F rnd D); [lia|auto]). rewrite inject_Z_mult in R1.
    apply (time_len F); auto.
    - apply (rnd_nonneg F rnd D). apply Qle_shift_div_l; lra.
    - apply (rnd_le F rnd D); [lia|]. apply Qle_shift_div_r; lra. }
  split; intro S; unfold show_plus.
  - destruct (bar_stage F rnd D false sym a m (span - 9) A M ltac:(lia)) as [B V]. rewrite B. eexists. split; [reflexivity|].
    repeat first [rewrite len_app | rewrite len_cons]; rewrite (percent_len F), stage_len, CT by (auto; lia). cbn [length]. lia.
  - destruct (bar_stage F rnd D true sym a m (span - 2) A M ltac:(lia)) as [B V]. rewrite B. eexists. split; [reflexivity|].
    repeat first [rewrite len_app | rewrite len_cons]; rewrite stage_len, CT by lia. cbn [length]. lia.
Qed.
(** The same for DownloadBar. *)
Lemma C35_download_width_proof : forall F rnd, doubles F rnd -> forall sym a m span el, 0 <= a <= m -> 0 < m -> span <= 2 ^ 53 ->
  a <= 999 * 2 ^ 30 -> (forall t, el = Some t -> (0 <= t)%Q /\ (inject_Z a <= inject_Z (999 * 2 ^ 30) * t)%Q) ->
  (10 <= span -> exists s, show_download rnd true sym a m span el = inr s /\ Z.of_nat (length s) = span + 9) /\
  (3 <= span -> exists s, show_download rnd false sym a m span el = inr s /\ Z.of_nat (length s) = span + 9).
Proof.
  intros F rnd D sym a m span el A M W AA T.
  assert (CT : Z.of_nat (length (rate rnd a m el)) = 9).
  { unfold rate. destruct el as [t|]; [|reflexivity]. destruct (T t eq_refl) as [T0 T1]. destruct (Z.eqb_spec a 0); [reflexivity|].
    assert (A0 : (0 <= inject_Z a)%Q) by (rewrite <- (Zle_Qle 0); lia).
    destruct (Z.leb_spec m a); [apply rate_len; auto; rewrite <- Zle_Qle; auto|].
    destruct (Qle_bool (1 # 100) t) eqn:E; [|reflexivity]. apply Qle_bool_iff in E.
    apply rate_len; auto.
    - apply (rnd_nonneg F rnd D). apply Qle_shift_div_l; lra.
    - apply (rnd_le F rnd D); [lia|]. apply Qle_shift_div_r; lra. }
  split; intro S; unfold show_download.
  - destruct (bar_stage F rnd D true sym a m (span - 10) A M ltac:(lia)) as [B V]. rewrite B. eexists. split; [reflexivity|].
    destruct (Z.ltb_spec m a); [lia|]. repeat first [rewrite len_app | rewrite len_cons]; rewrite (percent_len F), stage_len, CT by (auto; lia). cbn [length]. lia.
  - destruct (bar_stage F rnd D false sym a m (span - 3) A M ltac:(lia)) as [B V]. rewrite B. eexists. split; [reflexivity|].
    repeat first [rewrite len_app | rewrite len_cons]; rewrite stage_len, CT by lia. cbn [length]. lia.
Qed.
(** So ProgressBarPlus and DownloadBar never have [span] characters. *)
Lemma C35_span_refuted_proof : forall F rnd, doubles F rnd -> exists sym a m span s1 s2,
  0 <= a <= m /\ 0 < m /\ show_plus rnd true sym a m span None = inr s1 /\ show_download rnd true sym a m span None = inr s2 /\
  Z.of_nat (length s1) = 79 /\ Z.of_nat (length s2) = 79 /\ span = 70.
Proof.
  intros F rnd D. destruct (C35_plus_width_proof F rnd D 61 30 100 70 None) as [P _]; try lia; [discriminate|]. destruct (C35_download_width_proof F rnd D 61 30 100 70 None) as [Q _]; try lia; [discriminate|].
  destruct (P ltac:(lia)) as [s1 [E1 L1]]. destruct (Q ltac:(lia)) as [s2 [E2 L2]]. exists 61, 30, 100, 70, s1, s2. repeat split; auto; lia.
Qed.
(** Nothing limits the amount to max: beyond it ProgressBar is wider than [span] (amount 2 of 1, span 4). *)
Lemma C35_beyond_max_refuted_proof : forall F rnd, doubles F rnd -> exists sym a m span s, m < a /\ show rnd false sym a m span = inr s /\ Z.of_nat (length s) > span.
Proof.
  intros F rnd D. exists 61, 2, 1, 4, [91; 61; 61; 61; 61; 93]. split; [lia|]. split; [|cbn; lia].
  assert (E : trunc (marks rnd 2 1 (4 - 2)) = 4).
  { unfold marks, fraction. assert (E1 : (rnd (inject_Z 2) / rnd (inject_Z 1) == inject_Z 2)%Q) by (rewrite !(rnd_int F rnd D) by lia; reflexivity).
    pose proof (rnd_is F rnd D _ 2 ltac:(lia) E1) as E2.
    assert (E3 : (rnd (rnd (inject_Z 2) / rnd (inject_Z 1)) * inject_Z (4 - 2) == inject_Z 4)%Q) by (rewrite E2; reflexivity).
    pose proof (rnd_is F rnd D _ 4 ltac:(lia) E3) as E4. unfold trunc. rewrite E4. reflexivity. }
  unfold show, bar. rewrite E. reflexivity.
Qed.
(** max = 0: show() raises ZeroDivisionError. *)
Lemma C35_zero_max_proof : forall rnd pp sym a span, show rnd pp sym a 0 span = inl ZeroDivisionError.
Proof. intros rnd [] sym a span; reflexivity. Qed.
(** The bar can be complete before the amount is max: 99 of 100 in 20 places. *)
Lemma C35_complete_early_example_proof : bar (fun x => x) false 61 99 100 20 = inr (repeat 61 20).
Proof. vm_compute. reflexivity. Qed.

(** inc() adds; dec() subtracts if the amount is at least that and otherwise does nothing; after any history of
    non-negative steps the amount is not negative and at most what was added. *)
Definition added (l : list bop) : Z := fold_right (fun o n => match o with Inc k => k + n | Dec _ => n end) 0 l.
Lemma C35_count_proof : forall l, Forall (fun o => match o with Inc k | Dec k => 0 <= k end) l ->
  0 <= fold_left (fun a o => count o a) l 0 <= added l /\
  (forall a k, count (Inc k) a = a + k) /\ (forall a k, k <= a -> count (Dec k) a = a - k) /\ (forall a k, a < k -> count (Dec k) a = a).
Proof.
  intros l H. split.
  - assert (G : forall l a, Forall (fun o => match o with Inc k | Dec k => 0 <= k end) l -> 0 <= a -> 0 <= fold_left (fun a o => count o a) l a <= a + added l).
    { clear. induction l as [|o l IH]; intros a H A; cbn [fold_left added fold_right]; [lia|]. inversion H; subst. fold (added l). destruct o as [k|k]; cbn [count].
      - specialize (IH (a + k)). intuition lia.
      - destruct (Z.leb_spec k a); [specialize (IH (a - k))|specialize (IH a)]; intuition lia. }
    specialize (G l 0 H ltac:(lia)). lia.
  - cbn. split; [auto|]. split; intros a k K; destruct (Z.leb_spec k a); lia.
Qed.

(** There are such doubles: multiples of 2^-53, rounded to nearest. *)
Definition fixed (x : Q) : Prop := exists k : Z, (x == k # 2 ^ 53)%Q.
Definition nearest (x : Q) : Q := Qfloor (x * inject_Z (2 ^ 53) + (1 # 2)) # 2 ^ 53.
Lemma C35_doubles_example_proof : doubles fixed nearest.
Proof.
  assert (S : forall k : Z, ((k # 2 ^ 53) == inject_Z k * (1 # 2 ^ 53))%Q) by (intro k; unfold Qeq; cbn; lia).
  assert (P : (inject_Z (2 ^ 53) * (1 # 2 ^ 53) == 1)%Q) by reflexivity. assert (U : (0 < 1 # 2 ^ 53)%Q) by reflexivity.
  set (u := 1 # 2 ^ 53) in *. set (N := inject_Z (2 ^ 53)) in *. assert (NP : (0 < N)%Q) by reflexivity.
  constructor.
  - intros x y L. unfold nearest. rewrite !S. apply Qmult_le_compat_r; [|lra]. rewrite <- Zle_Qle. apply Qfloor_resp_le. fold N. nra.
  - intros x. unfold nearest, fixed. eexists. reflexivity.
  - intros x y [k K]. unfold nearest. rewrite S. rewrite K, S. fold N. set (X := (x * N)%Q). assert (E : (x == X * u)%Q) by (unfold X; rewrite <- Qmult_assoc, P; ring). rewrite E.
    set (n := Qfloor (X + (1 # 2))). pose proof (Qfloor_le (X + (1 # 2))) as L. pose proof (Qlt_floor (X + (1 # 2))) as V. fold n in L, V. rewrite inject_Z_plus in V. change (inject_Z 1) with 1%Q in V.
    assert (E1 : (inject_Z n * u - X * u == (inject_Z n - X) * u)%Q) by ring. assert (E2 : (inject_Z k * u - X * u == (inject_Z k - X) * u)%Q) by ring. rewrite E1, E2, !Qabs_Qmult.
    apply Qmult_le_compat_r; [|apply Qabs_nonneg]. destruct (Z.lt_trichotomy k n) as [H|[H|H]].
    + assert (inject_Z k <= inject_Z n - 1)%Q by (assert (k <= n - 1) by lia; rewrite Zle_Qle in H0; unfold Z.sub in H0; rewrite inject_Z_plus in H0; exact H0).
      rewrite (Qabs_neg (inject_Z k - X)) by lra. apply Qabs_Qle_condition. lra.
    + subst. lra.
    + assert (inject_Z n + 1 <= inject_Z k)%Q by (assert (n + 1 <= k) by lia; rewrite Zle_Qle in H0; rewrite inject_Z_plus in H0; exact H0).
      rewrite (Qabs_pos (inject_Z k - X)) by lra. apply Qabs_Qle_condition. lra.
  - intros z Z. exists (z * 2 ^ 53). unfold Qeq, inject_Z. cbn [Qnum Qden]. lia.
  - intros x [k K] X. exists (k - Qfloor x * 2 ^ 53). rewrite K at 1. rewrite !S. unfold Z.sub. rewrite inject_Z_plus, inject_Z_opp, inject_Z_mult. fold N.
    transitivity (inject_Z k * u - inject_Z (Qfloor x) * (N * u))%Q; [rewrite P; ring|ring].
  - intros x [k K] X. rewrite K in *. rewrite S in *. assert (H : (inject_Z k < N)%Q) by nra. unfold N in H. rewrite <- Zlt_Qlt in H. assert (H1 : (inject_Z k <= inject_Z (2 ^ 53 - 1))%Q) by (rewrite <- Zle_Qle; lia).
    assert (H2 : (inject_Z k <= N - 1)%Q) by exact H1. apply (Qmult_le_compat_r _ _ u) in H2; [|lra]. assert (H3 : ((N - 1) * u == N * u - u)%Q) by ring. rewrite H3, P in H2. exact H2.
  - exists (5 * 2 ^ 53 - 8). reflexivity.
Qed.
(** Texts of the three classes: 30 of 100 and 100 of 100 in 20 characters. *)
Lemma C35_show_example_proof :
  show (fun x => x) true 61 30 100 20 = inr [91; 61; 61; 61; 92; 32; 32; 32; 32; 32; 32; 32; 93; 32; 32; 51; 48; 46; 48; 37] /\
  show_plus (fun x => x) false 61 100 100 8 (Some 75%Q) = inr [91; 61; 61; 61; 61; 61; 61; 93; 32; 32; 32; 32; 49; 109; 49; 53; 115] /\
  show_download (fun x => x) true 61 2048 4096 14 (Some 1%Q) = inr [91; 61; 61; 45; 32; 93; 32; 32; 53; 48; 46; 48; 37; 32; 32; 32; 50; 46; 48; 107; 66; 47; 115].
Proof. vm_compute. auto. Qed.
(** So are the 53-bit floating point numbers, rounded to nearest even (M_Flt; no overflow or underflow). *)
Lemma C35_doubles_flt_example_proof : doubles F53 fl.
Proof. exact fl_doubles. Qed.
