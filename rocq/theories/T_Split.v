(** Property theorems (generated from P_SplitT.v by tools/gen_theorems.py). *)
From Coq Require Import List ZArith Bool QArith Qround Qabs Lia Lqa.
From Verif Require Import M_Py M_Num P_Num M_Split M_Tobj M_Runs S_Split P_Split P_SplitT.
Import ListNotations.
Open Scope Z_scope.

(** What splitDRX writes with the option -r or -d, for any file: the files together are the beginning of the data from where the split
    begins, the k-th file the k-th stretch of so many whole captures; with -r every file is of full length and what is left over is
    shorter than another file and less than a frame. *)
Theorem C131_copied : forall size recursive date count srate beampols data out, (0 < size)%nat ->
  M_Split.split size recursive date count srate beampols data = Ok out ->
  let w := (captures_of count srate * beampols * size)%nat in
  (0 < length out)%nat /\ concat out = firstn (length out * w) data /\
  (forall i, (i < length out)%nat -> nth i out [] = bytes (i * w) (S i * w) data) /\
  (recursive = true -> Forall (fun o => length o = w) out /\ (length out * w <= length data < S (length out) * w + size)%nat) /\
  (recursive = false -> length out = 1%nat /\ date = true).
Proof. exact C131_copied_proof. Qed.
Print Assumptions C131_copied.

Example C131_copied_example : exists out, M_Split.split 2 true false (1 # 2) 16384 2 [1; 2; 3; 4; 5; 6; 7; 8; 9; 10; 11; 12; 13; 14; 15; 16; 17; 18; 19] = Ok out /\ length out = 2%nat.
Proof. exact C131_copied_example_proof. Qed.

(** The captures kept last as long as asked for, to within one. *)
Theorem C131_duration : forall count srate, (0 < srate)%Q -> (0 <= count)%Q ->
  let n := inject_Z (Z.of_nat (captures_of count srate)) in (n * (4096 / srate) <= count < (n + 1) * (4096 / srate))%Q.
Proof. exact C131_duration_proof. Qed.
Print Assumptions C131_duration.

Example C131_duration_example : Z.of_nat (captures_of 10 19600000) = 47851.
Proof. exact C131_duration_example_proof. Qed.

(** Without either option nothing is ever written: the name of the file cannot be formed. *)
Theorem C131_plain_refuted : forall size count srate beampols data out, M_Split.split size false false count srate beampols data <> Ok out.
Proof. exact C131_plain_refuted_proof. Qed.
Print Assumptions C131_plain_refuted.

Example C131_plain_refuted_example : M_Split.split 2 false false (1 # 2) 16384 2 [1; 2; 3; 4; 5; 6; 7; 8; 9; 10] = Raise ValueError /\ exists o, M_Split.split 2 false true (1 # 2) 16384 2 [1; 2; 3; 4; 5; 6; 7; 8; 9; 10] = Ok [o].
Proof. exact C131_plain_refuted_example_proof. Qed.

(** The split begins with the first frame of a capture when the file is at one. *)
Theorem C132_aligned_partial : forall f post, opens_capture f -> begin_split (f :: post) = Ok (f :: post).
Proof. exact C132_aligned_partial_proof. Qed.
Print Assumptions C132_aligned_partial.

Example C132_aligned_partial_example : opens_capture (mkD 1 0 7).
Proof. exact C132_aligned_partial_example_proof. Qed.

(** Whenever the file is not at the first frame of a capture, the split begins with the frame after the first frame of the next one,
    which is itself left out. *)
Theorem C132_aligned_refuted : forall cur pre f post, Forall (fun g => drx_frame g /\ ~ opens_capture g) (cur :: pre) -> drx_frame f -> opens_capture f ->
  begin_split (cur :: pre ++ f :: post) = Ok post.
Proof. exact C132_aligned_refuted_proof. Qed.
Print Assumptions C132_aligned_refuted.

Example C132_aligned_refuted_example : begin_split [mkD 2 1 0; mkD 1 0 1; mkD 1 1 2; mkD 2 0 3; mkD 2 1 4; mkD 1 0 5] = Ok [mkD 1 1 2; mkD 2 0 3; mkD 2 1 4; mkD 1 0 5].
Proof. exact C132_aligned_refuted_example_proof. Qed.

(** Setting a Time from a number and reading it back in the same representation gives the number, and the representations agree:
    the Julian day is the modified one and 2400000.5, the Unix time the seconds from day 40587 on; likewise for TAI. *)
Theorem C133_numbers : forall s v q, number v = Some q ->
  (exists t, new_time s v F_JD UTC = Ok t /\ utc_jd t == q)%Q /\ (exists t, new_time s v F_MJD UTC = Ok t /\ utc_mjd t == q)%Q /\
  (exists t, new_time s v F_TIMET UTC = Ok t /\ utc_timet t == q)%Q /\
  ((forall x, to_tai s (of_tai s x) == x) -> (exists t, new_time s v F_JD TAI = Ok t /\ tai_jd s t == q) /\
    (exists t, new_time s v F_MJD TAI = Ok t /\ tai_mjd s t == q) /\ (exists t, new_time s v F_TIMET TAI = Ok t /\ tai_timet s t == q))%Q /\
  (forall t, utc_jd t == utc_mjd t + 2400000 + (1 # 2) /\ utc_timet t == (utc_mjd t - 40587) * 86400)%Q.
Proof. exact C133_numbers_proof. Qed.
Print Assumptions C133_numbers.

Example C133_numbers_example : exists t, new_time (mkScales (fun q => q) (fun q => q)) (PFloat (4800002 # 2)) F_JD UTC = Ok t /\ (utc_mjd t == 1 # 2)%Q.
Proof. exact C133_numbers_example_proof. Qed.

(** The MCS day and millisecond come back as they were set. *)
Theorem C133_mcs : forall s mjd mpm, 0 <= mjd -> 0 <= mpm < 86400000 ->
  exists t, new_time s (PSeq [PInt mjd; PInt mpm]) F_MCS UTC = Ok t /\ utc_mcs t = (mjd, mpm).
Proof. exact C133_mcs_proof. Qed.
Print Assumptions C133_mcs.

Example C133_mcs_example : exists t, new_time (mkScales (fun q => q) (fun q => q)) (PSeq [PInt 60000; PInt 86399999]) F_MCS UTC = Ok t /\ utc_mcs t = (60000, 86399999).
Proof. exact C133_mcs_example_proof. Qed.

(** The MCS day and millisecond of any time from 1858 on are the time to within half a millisecond; the sample count is the last
    sample not after the time from 1970 on.  Missing: the millisecond can be one too many for the day, see below. *)
Theorem C133_clocks_partial : forall t, (0 <= t)%Q ->
  (let '(d, m) := utc_mcs t in 0 <= m <= 86400000 /\ (Qabs ((inject_Z d + inject_Z m / 86400000 - t) * 86400000) <= 1 # 2)%Q) /\
  ((0 <= utc_timet t)%Q -> (inject_Z (utc_dp t) <= utc_timet t * 196000000 < inject_Z (utc_dp t) + 1)%Q).
Proof. exact C133_clocks_partial_proof. Qed.
Print Assumptions C133_clocks_partial.

Example C133_clocks_partial_example : (0 <= 60000 + (1 # 2))%Q /\ utc_mcs (60000 + (1 # 2)) = (60000, 43200000).
Proof. exact C133_clocks_partial_example_proof. Qed.

(** In the last half millisecond of a day the millisecond is 86400000, which is none of that day. *)
Theorem C133_midnight_refuted : forall d, 0 <= d -> utc_mcs (inject_Z d + (864000000 - 1) / 864000000) = (d, 86400000).
Proof. exact C133_midnight_refuted_proof. Qed.
Print Assumptions C133_midnight_refuted.

Example C133_midnight_refuted_example : utc_mcs (inject_Z 60000 + (864000000 - 1) / 864000000) = (60000, 86400000).
Proof. exact C133_midnight_refuted_example_proof. Qed.

(** A sample count set as the time comes back only when it is a whole number of seconds: the samples within the second are taken as
    seconds. *)
Theorem C133_samples_partial : forall s n, 0 <= n -> exists t, new_time s (PInt n) F_DP UTC = Ok t /\ (utc_timet t == inject_Z (n / 196000000 + n mod 196000000))%Q /\
  utc_dp t = (n / 196000000 + n mod 196000000) * 196000000 /\ (n mod 196000000 = 0 -> utc_dp t = n).
Proof. exact C133_samples_partial_proof. Qed.
Print Assumptions C133_samples_partial.

Example C133_samples_partial_example : 0 <= 196000000 * 1700000000 /\ (196000000 * 1700000000) mod 196000000 = 0.
Proof. exact C133_samples_partial_example_proof. Qed.

Theorem C133_samples_refuted : forall s n, 0 <= n -> n mod 196000000 <> 0 -> exists t, new_time s (PInt n) F_DP UTC = Ok t /\ utc_dp t <> n.
Proof. exact C133_samples_refuted_proof. Qed.
Print Assumptions C133_samples_refuted.

Example C133_samples_refuted_example : exists t, new_time (mkScales (fun q => q) (fun q => q)) (PInt 196000001) F_DP UTC = Ok t /\ utc_dp t = 392000000.
Proof. exact C133_samples_refuted_example_proof. Qed.

(** The calendar, sample and MCS formats are refused for TAI, unknown formats and time systems always, each with ValueError; every
    number format takes integers and floats only. *)
Theorem C133_formats : forall s v,
  (forall f, In f [F_PY_DATE; F_STR; F_DP; F_MCS] -> new_time s v f TAI = Raise ValueError) /\
  (forall y, new_time s v F_unknown y = Raise ValueError) /\ (forall f, new_time s v f T_unknown = Raise ValueError) /\
  (number v = None -> forall f y, In f [F_JD; F_MJD; F_TIMET] -> y <> T_unknown -> new_time s v f y = Raise TypeError).
Proof. exact C133_formats_proof. Qed.
Print Assumptions C133_formats.

Example C133_formats_example : number (PStr None) = None /\ new_time (mkScales (fun q => q) (fun q => q)) (PInt 5) F_MJD TAI = Ok 5%Q.
Proof. exact C133_formats_example_proof. Qed.

(** The comparisons of times are those of the instants. *)
Theorem C133_order : forall a b, (t_eq a b = true <-> (a == b)%Q) /\ (t_lt a b = true <-> (a < b)%Q) /\ (t_le a b = true <-> (a <= b)%Q) /\ (t_gt a b = true <-> (b < a)%Q) /\ (t_ge a b = true <-> (b <= a)%Q).
Proof. exact C133_order_proof. Qed.
Print Assumptions C133_order.

Example C133_order_example : t_lt (1 # 3) (1 # 2) = true /\ t_ge (2 # 4) (1 # 2) = true.
Proof. exact C133_order_example_proof. Qed.

(** The runs counted are the runs of the sequence, and the counts of positive and other values are right and add up. *)
Theorem C134_runs : forall l k p n, l <> [] -> count_runs l = (k, p, n) ->
  has_runs (map (fun q => negb (Qle_bool q 0)) l) k /\ p = Z.of_nat (length (filter (fun q => negb (Qle_bool q 0)) l)) /\
  n = Z.of_nat (length (filter (fun q => Qle_bool q 0) l)) /\ p + n = Z.of_nat (length l).
Proof. exact C134_runs_proof. Qed.
Print Assumptions C134_runs.

Example C134_runs_example : count_runs [1%Q; 2%Q; (-1)%Q; 0%Q; 3%Q] = (3, 3, 2).
Proof. exact C134_runs_example_proof. Qed.

(** No values: one run is counted. *)
Theorem C134_empty_refuted : count_runs [] = (1, 0, 0) /\ has_runs [] 0 /\ forall k, has_runs [] k -> k = 0.
Proof. exact C134_empty_refuted_proof. Qed.
Print Assumptions C134_empty_refuted.

(** The test does not depend on which of the two kinds of values is called positive. *)
Theorem C134_symmetric : forall l, Forall (fun q => ~ (q == 0)%Q) l ->
  fst (fst (count_runs (map Qopp l))) = fst (fst (count_runs l)) /\ ww_mean (map Qopp l) = ww_mean l /\ ww_var (map Qopp l) = ww_var l /\ ww_num (map Qopp l) = ww_num l.
Proof. exact C134_symmetric_proof. Qed.
Print Assumptions C134_symmetric.

Example C134_symmetric_example : Forall (fun q => ~ (q == 0)%Q) [1%Q; (-1)%Q; 2%Q; 3%Q] /\
  match ww_num [1%Q; (-1)%Q; 2%Q; 3%Q], ww_num [(-1)%Q; 1%Q; (-2)%Q; (-3)%Q] with Some a, Some b => (a == 0 /\ b == 0)%Q | _, _ => False end.
Proof. exact C134_symmetric_example_proof. Qed.

(** C134: the mean and variance of the number of runs are those of the test, and the statistic is the difference from the mean, which
    is moved by one half, up when it is negative and down otherwise, when there are at most 50 runs. *)
Theorem C134_statistic : forall l k p n, l <> [] -> count_runs l = (k, p, n) ->
  exists m q, ww_mean l = Some m /\ ww_num l = Some q /\ (m == 1 + 2 * inject_Z p * inject_Z n / (inject_Z p + inject_Z n))%Q /\
    (50 < k -> (q == inject_Z k - m)%Q) /\ (k <= 50 -> (inject_Z k < m)%Q -> (q == inject_Z k - m + (1 # 2))%Q) /\ (k <= 50 -> (m <= inject_Z k)%Q -> (q == inject_Z k - m - (1 # 2))%Q) /\
    (1 < p + n -> exists v, ww_var l = Some v /\ (v * ((inject_Z p + inject_Z n) * (inject_Z p + inject_Z n) * (inject_Z p + inject_Z n - 1)) == 2 * inject_Z p * inject_Z n * (2 * inject_Z p * inject_Z n - inject_Z p - inject_Z n))%Q).
Proof. exact C134_statistic_proof. Qed.
Print Assumptions C134_statistic.

(** Six runs in ten values, as many as the mean: the difference is zero, but the statistic is not. *)
Example C134_statistic_example : let l := [1%Q; 1%Q; (-1)%Q; (-1)%Q; 1%Q; (-1)%Q; 1%Q; 1%Q; (-1)%Q; (-1)%Q] in
  count_runs l = (6, 5, 5) /\ match ww_mean l, ww_num l with Some m, Some q => (m == 6 /\ q == - (1 # 2))%Q | _, _ => False end.
Proof. exact C134_statistic_example_proof. Qed.
