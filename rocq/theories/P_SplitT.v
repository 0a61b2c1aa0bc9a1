(** Splitting DRX files, times and runs: the theorems. *)
From Coq Require Import List ZArith Bool QArith Qround Qabs Lia Lqa.
From Verif Require Import M_Py M_Num P_Num M_Split M_Tobj M_Runs S_Split P_Split.
Import ListNotations.
Open Scope Z_scope.

(** What splitDRX writes with the option -r or -d, for any file: the files together are the beginning of the data from where the split
    begins, the k-th file the k-th stretch of so many whole captures; with -r every file is of full length and what is left over is
    shorter than another file and less than a frame. *)
Lemma C131_copied_proof : forall size recursive date count srate beampols data out, (0 < size)%nat ->
  M_Split.split size recursive date count srate beampols data = Ok out ->
  let w := (captures_of count srate * beampols * size)%nat in
  (0 < length out)%nat /\ concat out = firstn (length out * w) data /\
  (forall i, (i < length out)%nat -> nth i out [] = bytes (i * w) (S i * w) data) /\
  (recursive = true -> Forall (fun o => length o = w) out /\ (length out * w <= length data < S (length out) * w + size)%nat) /\
  (recursive = false -> length out = 1%nat /\ date = true).
Proof.
  intros size recursive date count srate bp data out Sz H w. unfold M_Split.split in H. cbv zeta in H. set (n := captures_of count srate) in *.
  unfold recursions in H. destruct (n * bp)%nat as [|k] eqn:K; cbn [bind] in H; [discriminate|].
  destruct (all_spec size (if recursive then (length data / size) / S k else 1)%nat n bp data) as (A & B & C & D). rewrite K in A, C, D. fold w in A, C, D.
  set (r := (if recursive then (length data / size) / S k else 1)%nat) in *.
  destruct r as [|r0] eqn:R; [discriminate|]. rewrite <- R in *.
  destruct (negb recursive && negb date) eqn:ND; [discriminate|]. injection H as <-.
  rewrite B. split; [lia|]. split; [exact C|]. split; [exact D|]. split.
  - intros ->. assert (W : w = (S k * size)%nat) by reflexivity. clearbody w. subst r.
    assert (L1 : ((length data / size) / S k * w <= length data)%nat).
    { rewrite W. pose proof (Nat.mul_div_le (length data / size) (S k) ltac:(lia)). pose proof (Nat.mul_div_le (length data) size ltac:(lia)). nia. }
    assert (L2 : (length data < S ((length data / size) / S k) * w + size)%nat).
    { rewrite W. pose proof (Nat.mul_succ_div_gt (length data / size) (S k) ltac:(lia)). pose proof (Nat.mul_succ_div_gt (length data) size ltac:(lia)). nia. }
    split; [|split; assumption]. apply Forall_forall. intros o I. apply (In_nth _ _ []) in I. destruct I as (i & Li & <-). rewrite B in Li. rewrite D by exact Li.
    unfold bytes. rewrite firstn_length, skipn_length. assert (S i * w <= length data)%nat by nia. nia.
  - intros ->. subst r. split; [reflexivity|]. destruct date; [reflexivity|discriminate].
Qed.
Lemma C131_copied_example_proof : exists out, M_Split.split 2 true false (1 # 2) 16384 2 [1; 2; 3; 4; 5; 6; 7; 8; 9; 10; 11; 12; 13; 14; 15; 16; 17; 18; 19] = Ok out /\ length out = 2%nat.
Proof. eexists. split; vm_compute; reflexivity. Qed.
(** The captures kept last as long as asked for, to within one. *)
Lemma C131_duration_proof : forall count srate, (0 < srate)%Q -> (0 <= count)%Q ->
  let n := inject_Z (Z.of_nat (captures_of count srate)) in (n * (4096 / srate) <= count < (n + 1) * (4096 / srate))%Q.
Proof.
  intros count srate Hs Hc n. unfold captures_of in n. assert (P : (0 <= count * srate / 4096)%Q).
  { apply Qle_shift_div_l; [reflexivity|]. setoid_replace (0 * 4096)%Q with 0%Q by ring. apply Qmult_le_0_compat; lra. }
  assert (F : 0 <= Qfloor (count * srate / 4096)) by (apply (Qfloor_resp_le 0); exact P).
  assert (N : (n == inject_Z (Qfloor (count * srate / 4096)))%Q) by (unfold n; rewrite Z2Nat.id by exact F; reflexivity).
  destruct (floor_spec (count * srate / 4096)) as (A & B). rewrite <- N in A, B.
  assert (E : (count == (count * srate / 4096) * (4096 / srate))%Q) by (field; lra).
  assert (G : (0 < 4096 / srate)%Q) by (apply Qlt_shift_div_l; lra).
  split.
  - rewrite E. apply Qmult_le_compat_r; [exact A|lra].
  - rewrite E at 1. apply Qmult_lt_compat_r; assumption.
Qed.
Lemma C131_duration_example_proof : Z.of_nat (captures_of 10 19600000) = 47851.
Proof. unfold captures_of. assert (E : Qfloor (10 * 19600000 / 4096) = 47851) by (vm_compute; reflexivity). rewrite E. apply Z2Nat.id. lia. Qed.
(** Without either option nothing is ever written: the name of the file cannot be formed. *)
Lemma C131_plain_refuted_proof : forall size count srate beampols data out, M_Split.split size false false count srate beampols data <> Ok out.
Proof. intros size count srate bp data out H. unfold M_Split.split, recursions in H. cbv zeta in H. destruct (captures_of count srate * bp)%nat; cbn [bind] in H; discriminate. Qed.
Lemma C131_plain_refuted_example_proof : M_Split.split 2 false false (1 # 2) 16384 2 [1; 2; 3; 4; 5; 6; 7; 8; 9; 10] = Raise ValueError /\ exists o, M_Split.split 2 false true (1 # 2) 16384 2 [1; 2; 3; 4; 5; 6; 7; 8; 9; 10] = Ok [o].
Proof. split; [vm_compute; reflexivity|]. eexists. vm_compute. reflexivity. Qed.

(** The split begins with the first frame of a capture when the file is at one. *)
Lemma C132_aligned_partial_proof : forall f post, opens_capture f -> begin_split (f :: post) = Ok (f :: post).
Proof. intros f post (T & P). unfold begin_split. cbn [seek_first]. rewrite T, P. reflexivity. Qed.
Lemma C132_aligned_partial_example_proof : opens_capture (mkD 1 0 7).
Proof. split; reflexivity. Qed.
(** Whenever the file is not at the first frame of a capture, the split begins with the frame after the first frame of the next one,
    which is itself left out. *)
Lemma C132_aligned_refuted_proof : forall cur pre f post, Forall (fun g => drx_frame g /\ ~ opens_capture g) (cur :: pre) -> drx_frame f -> opens_capture f ->
  begin_split (cur :: pre ++ f :: post) = Ok post.
Proof. intros cur pre f post H Df Of. unfold begin_split. apply (seek_spec (cur :: pre) cur f post); [|assumption|assumption]. constructor; [exact (Forall_inv H)|exact H]. Qed.
Lemma C132_aligned_refuted_example_proof : begin_split [mkD 2 1 0; mkD 1 0 1; mkD 1 1 2; mkD 2 0 3; mkD 2 1 4; mkD 1 0 5] = Ok [mkD 1 1 2; mkD 2 0 3; mkD 2 1 4; mkD 1 0 5].
Proof. reflexivity. Qed.

(** Setting a Time from a number and reading it back in the same representation gives the number, and the representations agree:
    the Julian day is the modified one and 2400000.5, the Unix time the seconds from day 40587 on; likewise for TAI. *)
Lemma C133_numbers_proof : forall s v q, number v = Some q ->
  (exists t, new_time s v F_JD UTC = Ok t /\ utc_jd t == q)%Q /\ (exists t, new_time s v F_MJD UTC = Ok t /\ utc_mjd t == q)%Q /\
  (exists t, new_time s v F_TIMET UTC = Ok t /\ utc_timet t == q)%Q /\
  ((forall x, to_tai s (of_tai s x) == x) -> (exists t, new_time s v F_JD TAI = Ok t /\ tai_jd s t == q) /\
    (exists t, new_time s v F_MJD TAI = Ok t /\ tai_mjd s t == q) /\ (exists t, new_time s v F_TIMET TAI = Ok t /\ tai_timet s t == q))%Q /\
  (forall t, utc_jd t == utc_mjd t + 2400000 + (1 # 2) /\ utc_timet t == (utc_mjd t - 40587) * 86400)%Q.
Proof.
  intros s v q N. unfold new_time, set_jd, set_mjd, set_timet, set_tai_jd, set_tai_mjd, set_tai_timet, with_number. rewrite N.
  split; [eexists; split; [reflexivity|unfold utc_jd; ring]|]. split; [eexists; split; [reflexivity|unfold utc_mjd; reflexivity]|].
  split; [eexists; split; [reflexivity|unfold utc_timet, of_unix; field]|]. split.
  - intro E. split; [eexists; split; [reflexivity|unfold tai_jd; rewrite E; ring]|]. split; [eexists; split; [reflexivity|unfold tai_mjd; rewrite E; reflexivity]|].
    eexists; split; [reflexivity|unfold tai_timet; rewrite E; unfold of_unix; field].
  - intro t. split; [unfold utc_jd, utc_mjd; ring|unfold utc_timet, utc_mjd; reflexivity].
Qed.
Lemma C133_numbers_example_proof : exists t, new_time (mkScales (fun q => q) (fun q => q)) (PFloat (4800002 # 2)) F_JD UTC = Ok t /\ (utc_mjd t == 1 # 2)%Q.
Proof. eexists. split; [reflexivity|]. vm_compute. reflexivity. Qed.
Lemma trunc_whole : forall d f, 0 <= d -> (0 <= f < 1)%Q -> trunc (inject_Z d + f) = d.
Proof.
  intros d f D F. unfold trunc. assert (P : (0 <= inject_Z d)%Q) by (change 0%Q with (inject_Z 0); apply injZ_le; exact D). assert (E : Qle_bool 0 (inject_Z d + f) = true) by (apply Qle_bool_iff; lra). rewrite E. apply floor_eq; lra.
Qed.
(** The MCS day and millisecond come back as they were set. *)
Lemma C133_mcs_proof : forall s mjd mpm, 0 <= mjd -> 0 <= mpm < 86400000 ->
  exists t, new_time s (PSeq [PInt mjd; PInt mpm]) F_MCS UTC = Ok t /\ utc_mcs t = (mjd, mpm).
Proof.
  intros s d m Hd Hm. eexists. split; [reflexivity|]. unfold utc_mcs, utc_mjd. cbn [number].
  assert (M0 : (0 <= inject_Z m)%Q) by (change 0%Q with (inject_Z 0); apply injZ_le; lia).
  assert (M1 : (inject_Z m < 86400000)%Q) by (change 86400000%Q with (inject_Z 86400000); apply injZ_lt; lia).
  assert (E : (inject_Z m / 86400 / 1000 == inject_Z m * (1 # 86400000))%Q) by field.
  assert (T : trunc (inject_Z d + inject_Z m / 86400 / 1000) = d) by (apply trunc_whole; [exact Hd|rewrite E; lra]). rewrite T. f_equal.
  apply py_round_near. assert (Z0 : ((inject_Z d + inject_Z m / 86400 / 1000 - inject_Z d) * 86400 * 1000 - inject_Z m == 0)%Q) by field. rewrite Z0. reflexivity.
Qed.
Lemma C133_mcs_example_proof : exists t, new_time (mkScales (fun q => q) (fun q => q)) (PSeq [PInt 60000; PInt 86399999]) F_MCS UTC = Ok t /\ utc_mcs t = (60000, 86399999).
Proof. apply C133_mcs_proof; lia. Qed.
(** The MCS day and millisecond of any time from 1858 on are the time to within half a millisecond; the sample count is the last
    sample not after the time from 1970 on.  Missing: the millisecond can be one too many for the day, see below. *)
Lemma C133_clocks_partial_proof : forall t, (0 <= t)%Q ->
  (let '(d, m) := utc_mcs t in 0 <= m <= 86400000 /\ (Qabs ((inject_Z d + inject_Z m / 86400000 - t) * 86400000) <= 1 # 2)%Q) /\
  ((0 <= utc_timet t)%Q -> (inject_Z (utc_dp t) <= utc_timet t * 196000000 < inject_Z (utc_dp t) + 1)%Q).
Proof.
  intros t H. split.
  - unfold utc_mcs, utc_mjd. assert (T : trunc t = Qfloor t) by (unfold trunc; replace (Qle_bool 0 t) with true by (symmetry; apply Qle_bool_iff; exact H); reflexivity). rewrite T.
    destruct (floor_spec t) as (A & B). set (d := Qfloor t) in *. clearbody d. pose proof (py_round_spec ((t - inject_Z d) * 86400 * 1000)) as R.
    set (m := py_round ((t - inject_Z d) * 86400 * 1000)) in *. clearbody m.
    assert (R2 := proj1 (Qabs_Qle_condition _ _) R). destruct R2 as (R3 & R4).
    split.
    + assert (X : (inject_Z (-1) < inject_Z m)%Q) by (change (inject_Z (-1)) with (-1)%Q; lra).
      assert (Y : (inject_Z m < inject_Z 86400001)%Q) by (change (inject_Z 86400001) with 86400001%Q; lra). rewrite <- Zlt_Qlt in X, Y. lia.
    + assert (E : ((inject_Z d + inject_Z m / 86400000 - t) * 86400000 == - ((t - inject_Z d) * 86400 * 1000 - inject_Z m))%Q) by field. rewrite E, Qabs_opp. exact R.
  - intro P. unfold utc_dp. set (x := (utc_timet t * inject_Z fS)%Q). assert (X : (0 <= x)%Q) by (unfold x; apply Qmult_le_0_compat; [exact P|vm_compute; discriminate]).
    unfold trunc. replace (Qle_bool 0 x) with true by (symmetry; apply Qle_bool_iff; exact X). destruct (floor_spec x). unfold x in *. change (inject_Z fS) with 196000000%Q in *. split; assumption.
Qed.
Lemma C133_clocks_partial_example_proof : (0 <= 60000 + (1 # 2))%Q /\ utc_mcs (60000 + (1 # 2)) = (60000, 43200000).
Proof. split; [vm_compute; discriminate|]. vm_compute. reflexivity. Qed.
(** In the last half millisecond of a day the millisecond is 86400000, which is none of that day. *)
Lemma C133_midnight_refuted_proof : forall d, 0 <= d -> utc_mcs (inject_Z d + (864000000 - 1) / 864000000) = (d, 86400000).
Proof.
  intros d Hd. unfold utc_mcs, utc_mjd. assert (T : trunc (inject_Z d + (864000000 - 1) / 864000000) = d) by (apply trunc_whole; [exact Hd|split; vm_compute; (discriminate || reflexivity)]). rewrite T. f_equal.
  apply py_round_near. assert (E : ((inject_Z d + (864000000 - 1) / 864000000 - inject_Z d) * 86400 * 1000 - inject_Z 86400000 == - (1 # 10))%Q) by (change (inject_Z 86400000) with 86400000%Q; field). rewrite E. vm_compute. reflexivity.
Qed.
Lemma C133_midnight_refuted_example_proof : utc_mcs (inject_Z 60000 + (864000000 - 1) / 864000000) = (60000, 86400000).
Proof. apply C133_midnight_refuted_proof. lia. Qed.
(** A sample count set as the time comes back only when it is a whole number of seconds: the samples within the second are taken as
    seconds. *)
Lemma C133_samples_partial_proof : forall s n, 0 <= n -> exists t, new_time s (PInt n) F_DP UTC = Ok t /\ (utc_timet t == inject_Z (n / 196000000 + n mod 196000000))%Q /\
  utc_dp t = (n / 196000000 + n mod 196000000) * 196000000 /\ (n mod 196000000 = 0 -> utc_dp t = n).
Proof.
  intros s n Hn. eexists. split; [reflexivity|]. change fS with 196000000. set (a := n / 196000000). set (b := n mod 196000000).
  assert (E : (utc_timet (of_unix (inject_Z a + inject_Z b)) == inject_Z (a + b))%Q) by (rewrite inject_Z_plus; unfold utc_timet, of_unix; field).
  split; [exact E|]. assert (A : 0 <= a) by (apply Z.div_pos; lia). assert (B : 0 <= b < 196000000) by (apply Z.mod_pos_bound; lia).
  assert (D : utc_dp (of_unix (inject_Z a + inject_Z b)) = (a + b) * 196000000).
  { unfold utc_dp. assert (X : (utc_timet (of_unix (inject_Z a + inject_Z b)) * inject_Z fS == inject_Z ((a + b) * 196000000))%Q) by (rewrite E, inject_Z_mult; reflexivity).
    unfold trunc. assert (P : (0 <= inject_Z ((a + b) * 196000000))%Q) by (change 0%Q with (inject_Z 0); apply injZ_le; lia).
    replace (Qle_bool 0 (utc_timet (of_unix (inject_Z a + inject_Z b)) * inject_Z fS)) with true by (symmetry; apply Qle_bool_iff; rewrite X; exact P).
    rewrite X. apply Qfloor_Z. }
  split; [exact D|]. intro Z0. rewrite D. pose proof (Z.div_mod n 196000000 ltac:(lia)). fold a b in H. lia.
Qed.
Lemma C133_samples_partial_example_proof : 0 <= 196000000 * 1700000000 /\ (196000000 * 1700000000) mod 196000000 = 0.
Proof. split; [lia|reflexivity]. Qed.
Lemma C133_samples_refuted_proof : forall s n, 0 <= n -> n mod 196000000 <> 0 -> exists t, new_time s (PInt n) F_DP UTC = Ok t /\ utc_dp t <> n.
Proof.
  intros s n Hn N. destruct (C133_samples_partial_proof s n Hn) as (t & E & _ & D & _). exists t. split; [exact E|]. rewrite D. intro X.
  apply N. rewrite <- X. apply Z.mod_mul. lia.
Qed.
Lemma C133_samples_refuted_example_proof : exists t, new_time (mkScales (fun q => q) (fun q => q)) (PInt 196000001) F_DP UTC = Ok t /\ utc_dp t = 392000000.
Proof. eexists. split; [reflexivity|]. vm_compute. reflexivity. Qed.
(** The calendar, sample and MCS formats are refused for TAI, unknown formats and time systems always, each with ValueError; every
    number format takes integers and floats only. *)
Lemma C133_formats_proof : forall s v,
  (forall f, In f [F_PY_DATE; F_STR; F_DP; F_MCS] -> new_time s v f TAI = Raise ValueError) /\
  (forall y, new_time s v F_unknown y = Raise ValueError) /\ (forall f, new_time s v f T_unknown = Raise ValueError) /\
  (number v = None -> forall f y, In f [F_JD; F_MJD; F_TIMET] -> y <> T_unknown -> new_time s v f y = Raise TypeError).
Proof.
  intros s v. split; [|split; [|split]].
  - intros f [<-|[<-|[<-|[<-|[]]]]]; reflexivity.
  - intro y. reflexivity.
  - intros []; reflexivity.
  - intros N f y [<-|[<-|[<-|[]]]] Y; destruct y; try congruence; cbn; unfold set_jd, set_mjd, set_timet, set_tai_jd, set_tai_mjd, set_tai_timet, with_number; rewrite N; reflexivity.
Qed.
Lemma C133_formats_example_proof : number (PStr None) = None /\ new_time (mkScales (fun q => q) (fun q => q)) (PInt 5) F_MJD TAI = Ok 5%Q.
Proof. split; reflexivity. Qed.
(** The comparisons of times are those of the instants. *)
Lemma C133_order_proof : forall a b, (t_eq a b = true <-> (a == b)%Q) /\ (t_lt a b = true <-> (a < b)%Q) /\ (t_le a b = true <-> (a <= b)%Q) /\ (t_gt a b = true <-> (b < a)%Q) /\ (t_ge a b = true <-> (b <= a)%Q).
Proof.
  intros a b. unfold t_eq, t_lt, t_le, t_gt, t_ge, t_lt, t_eq, cmp.
  destruct (Qle_bool b a) eqn:E1; destruct (Qle_bool a b) eqn:E2; cbn [negb];
    try (apply Qle_bool_iff in E1); try (apply Qle_bool_iff in E2); try (apply Qle_bool_f in E1); try (apply Qle_bool_f in E2);
    cbn; repeat split; intro X; try discriminate X; try reflexivity; lra.
Qed.
Lemma C133_order_example_proof : t_lt (1 # 3) (1 # 2) = true /\ t_ge (2 # 4) (1 # 2) = true.
Proof. split; reflexivity. Qed.

(** The runs counted are the runs of the sequence, and the counts of positive and other values are right and add up. *)
Lemma C134_runs_proof : forall l k p n, l <> [] -> count_runs l = (k, p, n) ->
  has_runs (map (fun q => negb (Qle_bool q 0)) l) k /\ p = Z.of_nat (length (filter (fun q => negb (Qle_bool q 0)) l)) /\
  n = Z.of_nat (length (filter (fun q => Qle_bool q 0) l)) /\ p + n = Z.of_nat (length l).
Proof.
  intros l k p n N H. unfold count_runs in H. cbv zeta in H. injection H as <- <- <-.
  assert (F1 : forall l : list Q, length (filter (fun b => b) (to_binary l)) = length (filter (fun q => negb (Qle_bool q 0)) l)).
  { clear. intro l. induction l as [|q l IH]; [reflexivity|]. cbn [to_binary map filter]. destruct (negb (Qle_bool q 0)); cbn [length]; [f_equal|]; exact IH. }
  assert (F2 : forall l : list Q, (length (filter (fun q => negb (Qle_bool q 0)) l) + length (filter (fun q => Qle_bool q 0) l) = length l)%nat).
  { clear. intro l. induction l as [|q l IH]; [reflexivity|]. cbn [filter]. destruct (Qle_bool q 0); cbn [negb length]; lia. }
  rewrite F1. assert (LB : length (to_binary l) = length l) by apply map_length. rewrite LB. specialize (F2 l). split; [|split; [reflexivity|split; lia]].
  fold (to_binary l). destruct (to_binary l) as [|b r] eqn:E; [destruct l; [congruence|discriminate]|]. clear.
  assert (S : forall r t b, runs_loop (t + 1) b r = runs_loop t b r + 1).
  { intro d. induction d as [|c d IH]; intros t e; [reflexivity|]. cbn [runs_loop]. destruct c, e; rewrite ?IH; reflexivity. }
  revert b. induction r as [|c r IH]; intro b; [constructor|]. cbn [runs_loop]. destruct c, b; rewrite ?S; try (apply hr_same; apply IH); [exact (hr_new true r _ (IH true))|exact (hr_new false r _ (IH false))].
Qed.
Lemma C134_runs_example_proof : count_runs [1%Q; 2%Q; (-1)%Q; 0%Q; 3%Q] = (3, 3, 2).
Proof. reflexivity. Qed.
(** No values: one run is counted. *)
Lemma C134_empty_refuted_proof : count_runs [] = (1, 0, 0) /\ has_runs [] 0 /\ forall k, has_runs [] k -> k = 0.
Proof. split; [reflexivity|]. split; [constructor|]. intros k H. inversion H. reflexivity. Qed.
(** The test does not depend on which of the two kinds of values is called positive. *)
Lemma C134_symmetric_proof : forall l, Forall (fun q => ~ (q == 0)%Q) l ->
  fst (fst (count_runs (map Qopp l))) = fst (fst (count_runs l)) /\ ww_mean (map Qopp l) = ww_mean l /\ ww_var (map Qopp l) = ww_var l /\ ww_num (map Qopp l) = ww_num l.
Proof.
  intros l H. assert (B : to_binary (map Qopp l) = map negb (to_binary l)).
  { unfold to_binary. rewrite !map_map. induction H as [|q l N _ IH]; [reflexivity|]. cbn [map]. f_equal; [|exact IH].
    destruct (Qle_bool q 0) eqn:E1; destruct (Qle_bool (- q) 0) eqn:E2; try reflexivity.
    - apply Qle_bool_iff in E1, E2. destruct N. lra.
    - apply Qle_bool_f in E1, E2. exfalso. lra. }
  assert (L : forall d t b, runs_loop t (negb b) (map negb d) = runs_loop t b d).
  { intro d. induction d as [|c d IH]; intros t b; [reflexivity|]. cbn [map runs_loop]. destruct c, b; cbn [negb]; exact (IH _ true) || exact (IH _ false). }
  assert (C : forall d : list bool, (length (filter (fun b => b) (map negb d)) + length (filter (fun b => b) d) = length d)%nat).
  { intro d. induction d as [|[] d IH]; [reflexivity| |]; cbn [map negb filter length]; lia. }
  destruct (count_runs l) as [[k p] n] eqn:E. assert (E2 : count_runs (map Qopp l) = (k, n, p)).
  { unfold count_runs in *. cbv zeta in *. rewrite B. injection E as <- <- <-. specialize (C (to_binary l)). rewrite map_length. f_equal; [f_equal|].
    - destruct (to_binary l) as [|b d]; [reflexivity|]. cbn [map]. apply L.
    - lia.
    - lia. }
  assert (M : ww_mean (map Qopp l) = ww_mean l).
  { unfold ww_mean. rewrite E, E2. rewrite (Z.add_comm n p). replace (2 * n * p) with (2 * p * n) by ring. reflexivity. }
  split; [rewrite E2; reflexivity|]. split; [exact M|]. split.
  - unfold ww_var. rewrite E, E2. cbv zeta. rewrite (Z.add_comm n p). replace (2 * n * p * (2 * n * p - n - p)) with (2 * p * n * (2 * p * n - p - n)) by ring. reflexivity.
  - unfold ww_num. rewrite M, E, E2. reflexivity.
Qed.
Lemma C134_symmetric_example_proof : Forall (fun q => ~ (q == 0)%Q) [1%Q; (-1)%Q; 2%Q; 3%Q] /\
  match ww_num [1%Q; (-1)%Q; 2%Q; 3%Q], ww_num [(-1)%Q; 1%Q; (-2)%Q; (-3)%Q] with Some a, Some b => (a == 0 /\ b == 0)%Q | _, _ => False end.
Proof.
  split; [repeat constructor; intro E; vm_compute in E; discriminate|]. split; vm_compute; reflexivity.
Qed.
(** C134: the mean and variance of the number of runs are those of the test, and the statistic is the difference from the mean, which
    is moved by one half, up when it is negative and down otherwise, when there are at most 50 runs. *)
Lemma C134_statistic_proof : forall l k p n, l <> [] -> count_runs l = (k, p, n) ->
  exists m q, ww_mean l = Some m /\ ww_num l = Some q /\ (m == 1 + 2 * inject_Z p * inject_Z n / (inject_Z p + inject_Z n))%Q /\
    (50 < k -> (q == inject_Z k - m)%Q) /\ (k <= 50 -> (inject_Z k < m)%Q -> (q == inject_Z k - m + (1 # 2))%Q) /\ (k <= 50 -> (m <= inject_Z k)%Q -> (q == inject_Z k - m - (1 # 2))%Q) /\
    (1 < p + n -> exists v, ww_var l = Some v /\ (v * ((inject_Z p + inject_Z n) * (inject_Z p + inject_Z n) * (inject_Z p + inject_Z n - 1)) == 2 * inject_Z p * inject_Z n * (2 * inject_Z p * inject_Z n - inject_Z p - inject_Z n))%Q).
Proof.
  intros l k p n N E. assert (L : p + n = Z.of_nat (length l)).
  { unfold count_runs in E. injection E as _ <- <-. unfold to_binary. rewrite map_length. lia. }
  assert (P : 0 < p + n) by (rewrite L; destruct l; [congruence|cbn [length]; lia]).
  unfold ww_num, ww_mean, ww_var. rewrite E. cbn [fst]. destruct (Z.eqb_spec (p + n) 0); [lia|]. set (m := (inject_Z (2 * p * n) / inject_Z (p + n) + 1)%Q). eexists. eexists. split; [reflexivity|]. split; [reflexivity|].
  assert (Mm : (m == 1 + 2 * inject_Z p * inject_Z n / (inject_Z p + inject_Z n))%Q) by (unfold m; rewrite !inject_Z_mult, inject_Z_plus; change (inject_Z 2) with 2%Q; ring). split; [exact Mm|]. clearbody m. clear Mm.
  assert (K50 : Qle_bool (inject_Z k) 50 = (k <=? 50)).
  { destruct (Z.leb_spec k 50) as [A|A]; [apply Qle_bool_iff; change 50%Q with (inject_Z 50); rewrite <- Zle_Qle; exact A|]. apply not_true_is_false. intro B. apply Qle_bool_iff in B. change 50%Q with (inject_Z 50) in B. rewrite <- Zle_Qle in B. lia. }
  rewrite K50. split; [|split; [|split]].
  - intro A. destruct (Z.leb_spec k 50); [lia|]. cbn [negb]. reflexivity.
  - intros A B. destruct (Z.leb_spec k 50); [|lia]. cbn [negb]. destruct (Qle_bool 0 (inject_Z k - m)) eqn:C; [apply Qle_bool_iff in C; lra|]. cbn [negb]. reflexivity.
  - intros A B. destruct (Z.leb_spec k 50); [|lia]. cbn [negb]. destruct (Qle_bool 0 (inject_Z k - m)) eqn:C; [cbn [negb]; reflexivity|]. apply Qle_bool_f in C. lra.
  - intro A. destruct (Z.eqb_spec ((p + n) * (p + n) * (p + n - 1)) 0) as [Z0|Z0]; [apply Z.mul_eq_0 in Z0; destruct Z0 as [Z0|Z0]; [apply Z.mul_eq_0 in Z0; lia|lia]|]. eexists. split; [reflexivity|].
    assert (W : ~ (inject_Z ((p + n) * (p + n) * (p + n - 1)) == 0)%Q) by (intro H; apply Z0; apply (proj1 (inject_Z_injective _ 0)); exact H).
    assert (D : (inject_Z ((p + n) * (p + n) * (p + n - 1)) == (inject_Z p + inject_Z n) * (inject_Z p + inject_Z n) * (inject_Z p + inject_Z n - 1))%Q) by (unfold Z.sub; rewrite !inject_Z_mult, !inject_Z_plus; change (inject_Z (- (1))) with (- (1))%Q; ring).
    rewrite <- D. unfold Z.sub. rewrite Qmult_comm, Qmult_div_r by exact W. rewrite !inject_Z_mult, !inject_Z_plus, !inject_Z_opp, !inject_Z_mult. change (inject_Z 2) with 2%Q. ring.
Qed.
(** Six runs in ten values, as many as the mean: the difference is zero, but the statistic is not. *)
Lemma C134_statistic_example_proof : let l := [1%Q; 1%Q; (-1)%Q; (-1)%Q; 1%Q; (-1)%Q; 1%Q; 1%Q; (-1)%Q; (-1)%Q] in
  count_runs l = (6, 5, 5) /\ match ww_mean l, ww_num l with Some m, Some q => (m == 6 /\ q == - (1 # 2))%Q | _, _ => False end.
Proof.
  split; [reflexivity|]. vm_compute. split; reflexivity.
Qed.
