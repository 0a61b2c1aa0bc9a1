(** Robust statistics of moved, stretched and reordered numbers. *)
From Coq Require Import List ZArith QArith Qcanon Qcabs Bool Arith Lia Lqa Permutation Sorted.
From Verif Require Import M_Robust S_Robust P_Robust P_RobustA P_RobustB P_RobustC.
Import ListNotations.
Open Scope Qc_scope.

(** More than half within a bounded distance, none repeated by half: the deviation is positive and bounded. *)
Lemma spread_mad l c m : spread_out l -> median (devs c l) = Some m -> epsilon <= m / dec 6745 10000.
Proof.
  intros S E. rewrite div_6745. destruct (Qclt_le_dec (dec 10000 6745 * m) epsilon) as [Q|]; [|assumption]. exfalso.
  assert (B := below_median _ _ E). rewrite devs_len in B. unfold devs in B. rewrite count_map in B.
  specialize (S (c - m) (c + m)). rewrite inside_count in S.
  assert (K : (count (fun x => qle (Qcabs (x - c)) m) l <= count (fun x => qle (c - m) x && qle x (c + m)) l)%nat).
  { apply count_impl. intros x _. rewrite qle_true, abs_le, andb_true_iff, !qle_true. intros [H1 H2]. split; revert H1 H2; clear; qcl. }
  assert (T : (2 * count (fun x => qle (c - m) x && qle x (c + m)) l < length l)%nat).
  { apply S. revert Q. unfold epsilon. clear. qcl. }
  assert (P := Nat.div_mod (length l + 1) 2 ltac:(lia)).
  assert (Nat.modulo (length l + 1) 2 < 2)%nat by (apply Nat.mod_upper_bound; lia). lia.
Qed.
Lemma count_exists p l : (0 < count p l)%nat -> exists x, In x l /\ p x = true.
Proof.
  unfold count. intro H. destruct (filter p l) as [|x r] eqn:E; [cbn in H; lia|]. exists x. apply filter_In. rewrite E. left. reflexivity.
Qed.
Lemma count_or p q l : (count p l <= count (fun x => p x && negb (q x)) l + count q l)%nat.
Proof. unfold count. induction l as [|x l IH]; cbn; [lia|]. destruct (p x), (q x); cbn; lia. Qed.
Lemma sum_pos (f : Qc -> Qc) l x : (forall y, In y l -> 0 <= f y) -> In x l -> 0 < f x -> 0 < qsum (map f l).
Proof.
  induction l as [|y l IH]; intros N I P; [contradiction|]. cbn [map]. rewrite qsum_cons.
  assert (T : 0 <= qsum (map f l)).
  { replace 0 with (qsum (map (fun _ : Qc => 0) l)) by (rewrite sum_const; ring). apply sum_le. intros z Hz. apply N. right. exact Hz. }
  destruct I as [->|I].
  - revert P T. generalize (f x), (qsum (map f l)). qcx.
  - assert (A := IH (fun z Hz => N z (or_intror Hz)) I P). assert (B := N y (or_introl eq_refl)). revert A B. generalize (f y), (qsum (map f l)). qcx.
Qed.
Lemma sq_pos x : x <> 0 -> 0 < sq x.
Proof.
  intro H. assert (N := sq_nonneg x). destruct (Qcle_lt_or_eq _ _ N) as [|E]; [assumption|]. exfalso. apply H.
  unfold sq in E. symmetry in E. apply Qcmult_integral in E. destruct E; assumption.
Qed.
Lemma std_core_pos c mad l x s : 0 < mad -> In x l -> x <> c -> near c mad (dec 13490 10000) x = true ->
  ((length l + 1) / 2 <= count (near c mad (dec 6745 10000)) l)%nat -> (length l / 2 + 1 <= count (near c mad (dec 13490 10000)) l)%nat ->
  (4 <= length l)%nat -> std_core c mad l = Num s -> 0 < s.
Proof.
  intros P I Hx Hn A B L. unfold std_core.
  set (good := filter (fun x => qle (u2 c mad x) 1) l).
  destruct (length good <? 3)%nat; [discriminate|].
  assert (D := den_low c mad P l A B ltac:(lia)). fold good in D.
  change (fun x => (1 - u2 c mad x) * (1 - dec 5 1 * u2 c mad x)) with (weight c mad).
  set (den := qsum (map (weight c mad) good)) in *.
  set (num := qsum (map _ good)).
  assert (N0 : 0 < num).
  { unfold near in Hn. apply qle_true in Hn. apply (u2_le c mad P) in Hn.
    assert (Q : u2 c mad x < 1) by (eapply Qcle_lt_trans; [exact Hn|]; clear; qcx).
    unfold num. apply (sum_pos _ good x).
    - intros y _. apply mul_nonneg; apply sq_nonneg.
    - unfold good. apply filter_In. split; [exact I|]. apply qle_true. apply Qclt_le_weak. exact Q.
    - apply mul_pos; apply sq_pos.
      + intro E. apply Hx. revert E. clear. intro E. replace x with (x - c + c) by ring. rewrite E. ring.
      + intro E. assert (T : 0 < sq (1 - u2 c mad x)) by (apply sq_pos; intro F; revert Q F; clear; generalize (u2 c mad x); intros q Q F; apply (Qclt_not_eq _ _ Q); replace q with (1 - (1 - q)) by ring; rewrite F; ring).
        rewrite E in T. exact (Qclt_not_eq _ _ T eq_refl). }
  clearbody num den. assert (L4 : dec 4 1 <= qn (length l)) by (change (dec 4 1) with (qn 4); apply qn_le; exact L).
  set (n := qn (length l)) in *. clearbody n.
  assert (D1 : 1 < den) by (revert D L4; clear; qcx).
  assert (Dp : 0 < den * (den - 1)) by (apply mul_pos; revert D1; clear; qcx).
  destruct (Qc_eq_dec (den * (den - 1)) 0) as [E|_]; [rewrite E in Dp; exfalso; exact (Qclt_not_eq _ _ Dp eq_refl)|].
  assert (U : 0 < n * num / (den * (den - 1))).
  { unfold Qcdiv. assert (Pn : 0 < n) by (revert L4; clear; qcx).
    apply mul_pos; [apply mul_pos; assumption|]. set (z := den * (den - 1)) in *. clearbody z. clear -Dp.
    destruct (Qclt_le_dec 0 (/ z)) as [|Hz]; [assumption|]. exfalso.
    assert (Nz : z <> 0) by (intros E; rewrite E in Dp; exact (Qclt_not_eq _ _ Dp eq_refl)).
    assert (T : / z * z <= 0 * z) by (apply Qcmult_le_compat_r; [exact Hz|apply Qclt_le_weak; exact Dp]).
    rewrite Qcmult_inv_l in T by exact Nz. rewrite Qcmult_0_l in T. revert T. clear. intro T. exact (T eq_refl). }
  apply qlt_true in U. rewrite U. intro H. injection H as <-. apply qlt_true in U. exact U.
Qed.
Theorem std_most a b l : most a b l -> spread_out l -> (4 <= length l)%nat ->
  exists s, std false l = Num s /\ 0 < s /\ s <= dec 2200 1 * sq (b - a).
Proof.
  intros M S L. assert (N := most_ne _ _ _ M).
  destruct (median_exists _ N) as [c Hc]. destruct (mad_exists c _ N) as [mad Hm].
  assert (C := median_most _ _ _ _ M Hc). destruct (mad_most _ _ _ _ _ M S C Hm) as [Q U].
  destruct (mad_facts _ _ _ N Hm) as [P0 F]. destruct (F Q) as [A B]. rewrite near_unfold in A, B.
  assert (P : 0 < mad) by (eapply Qclt_le_trans; [apply eps_pos|exact Q]).
  unfold std. rewrite Hc, Hm. destruct (qlt mad epsilon) eqn:E; [apply qlt_true in E; exfalso; exact (Qclt_not_le _ _ E Q)|].
  destruct (std_core_ok c mad l P A B L) as (s & S1 & S2 & S3).
  exists s. split; [exact S1|]. split.
  - assert (K : (2 * inside c c l < length l)%nat) by (apply S; clear; qcl). rewrite inside_count in K.
    assert (T := count_or (near c mad (dec 13490 10000)) (fun x => qle c x && qle x c) l).
    destruct (count_exists (fun x => near c mad (dec 13490 10000) x && negb (qle c x && qle x c)) l) as (x & I & Hx).
    { assert (R := Nat.div_mod (length l) 2 ltac:(lia)). assert (Nat.modulo (length l) 2 < 2)%nat by (apply Nat.mod_upper_bound; lia). lia. }
    apply andb_true_iff in Hx. destruct Hx as [H1 H2]. apply (std_core_pos c mad l x s); try assumption.
    intros ->. apply negb_true_iff in H2. assert (R : qle c c = true) by (apply qle_true, Qcle_refl). rewrite R in H2. discriminate.
  - eapply Qcle_trans; [exact S3|].
    assert (T : sq mad <= sq (dec 10000 6745 * (b - a))) by (apply sq_le; [|exact U]; revert P U; generalize (dec 10000 6745 * (b - a)); clear; qcx).
    replace (sq (dec 10000 6745 * (b - a))) with (sq (dec 10000 6745) * sq (b - a)) in T by (unfold sq; ring).
    assert (W := sq_nonneg (b - a)). revert T W. generalize (sq mad), (sq (b - a)). clear. qcx.
Qed.

(** Reordering *)
Lemma filter_perm {A} (p : A -> bool) l m : Permutation l m -> Permutation (filter p l) (filter p m).
Proof.
  induction 1; cbn; try constructor.
  - destruct (p x); [constructor|]; assumption.
  - destruct (p x), (p y); try constructor; try reflexivity.
  - etransitivity; eassumption.
Qed.
Lemma qmean_perm l m : Permutation l m -> qmean l = qmean m.
Proof.
  intro P. destruct l as [|x l], m as [|y m].
  - reflexivity.
  - apply Permutation_nil in P. discriminate.
  - symmetry in P. apply Permutation_nil in P. discriminate.
  - unfold qmean. rewrite (qsum_perm _ _ P), (Permutation_length P). reflexivity.
Qed.
Lemma devs_perm c l m : Permutation l m -> Permutation (devs c l) (devs c m). Proof. apply Permutation_map. Qed.
Lemma mad_perm c l m : Permutation l m -> max_abs_dev c l = max_abs_dev c m.
Proof. intro P. unfold max_abs_dev. rewrite (median_perm _ _ (devs_perm c _ _ P)), (qmean_perm _ _ (devs_perm c _ _ P)). reflexivity. Qed.
Lemma variance_perm c l m : Permutation l m -> variance c l = variance c m.
Proof. intro P. unfold variance. rewrite (Permutation_length P). f_equal. apply qsum_perm, Permutation_map, P. Qed.
Theorem mean_perm cut l m : Permutation l m -> mean cut l = mean cut m.
Proof.
  intro P. unfold mean. rewrite (median_perm _ _ P). destruct (median m) as [c|]; [|reflexivity]. rewrite (mad_perm c _ _ P).
  destruct (max_abs_dev c m) as [mad|]; [|reflexivity].
  assert (P1 := filter_perm (fun x => qle (Qcabs (x - c)) (cut * mad)) _ _ P). rewrite (qmean_perm _ _ P1).
  destruct (qmean _) as [m1|]; [|reflexivity]. rewrite (variance_perm m1 _ _ P1).
  set (va := variance _ _). clearbody va.
  assert (P2 := filter_perm (fun x => within_root (x - c) cut va (correction cut)) _ _ P). rewrite (qmean_perm _ _ P2), (Permutation_length P2).
  reflexivity.
Qed.
Theorem std_perm zero l m : Permutation l m -> std zero l = std zero m.
Proof.
  intro P. unfold std. rewrite (median_perm _ _ P). destruct (if zero then _ else _) as [c|]; [|reflexivity]. rewrite (mad_perm c _ _ P).
  destruct (max_abs_dev c m) as [mad|]; [|reflexivity]. destruct (qlt mad epsilon); [reflexivity|].
  unfold std_core. assert (P1 := filter_perm (fun x => qle (u2 c mad x) 1) _ _ P). rewrite (Permutation_length P1), (Permutation_length P).
  rewrite (qsum_perm _ _ (Permutation_map (fun x => sq (x - c) * sq (sq (1 - u2 c mad x))) P1)). rewrite (qsum_perm _ _ (Permutation_map (fun x => (1 - u2 c mad x) * (1 - dec 5 1 * u2 c mad x)) P1)). reflexivity.
Qed.
Theorem mode_perm l m : Permutation l m -> mode l = mode m.
Proof. intro P. unfold mode. rewrite (sort_of_perm _ _ P). reflexivity. Qed.

(** x -> k*x + t with k > 0 *)
Section Affine.
Context (k t : Qc) (K : 0 < k).
Definition aff (x : Qc) : Qc := k * x + t.
Lemma k_ne : k <> 0. Proof. intro E. rewrite E in K. exact (Qclt_not_eq _ _ K eq_refl). Qed.
Lemma aff_mono x y : x <= y -> aff x <= aff y.
Proof. intro H. unfold aff. assert (T : k * x <= k * y) by (rewrite !(Qcmult_comm k); apply Qcmult_le_compat_r; [exact H|apply Qclt_le_weak; exact K]). revert T. generalize (k * x), (k * y). clear. qcl. Qed.
Lemma item_map l i : (i < length l)%nat -> item (map aff l) i = aff (item l i).
Proof. intro H. unfold item. rewrite (nth_indep _ 0 (aff 0)) by (rewrite map_length; exact H). apply map_nth. Qed.
Lemma median_aff l : median (map aff l) = option_map aff (median l).
Proof.
  unfold median. rewrite sort_map by (exact aff_mono). rewrite map_length, sort_length.
  destruct (length l) as [|n] eqn:E; [reflexivity|]. cbn [option_map]. f_equal.
  assert (B := half_of (S n) ltac:(lia)). rewrite !item_map by (rewrite sort_length; lia).
  destruct (Nat.odd (S n)); [reflexivity|]. rewrite !half_eq. unfold aff. generalize (item (sort l) (S n / 2 - 1)), (item (sort l) (S n / 2)). clear K.
  intros x y. assert (T : t = dec 1 2 * (t + t)) by qcl. rewrite T at 3. ring.
Qed.
Lemma scale_le x y : qle (k * x) (k * y) = qle x y.
Proof.
  destruct (qle x y) eqn:E.
  - apply qle_true in E. apply qle_true. rewrite !(Qcmult_comm k). apply Qcmult_le_compat_r; [exact E|apply Qclt_le_weak; exact K].
  - apply qle_false in E. apply qle_false. rewrite !(Qcmult_comm k). apply Qcmult_lt_compat_r; [exact K|exact E].
Qed.
Lemma abs_aff x c : Qcabs (aff x - aff c) = k * Qcabs (x - c).
Proof.
  unfold aff. replace (k * x + t - (k * c + t)) with (k * (x - c)) by ring. rewrite Qcabs_Qcmult. f_equal. apply Qcabs_pos. apply Qclt_le_weak. exact K.
Qed.
Lemma devs_aff c l : devs (aff c) (map aff l) = map (fun x => k * x) (devs c l).
Proof. unfold devs. rewrite !map_map. apply map_ext. intro x. apply abs_aff. Qed.
Lemma sum_aff l : qsum (map aff l) = k * qsum l + t * qn (length l).
Proof. induction l as [|x l IH]; cbn [map length]; rewrite ?qsum_cons, ?qn_S; [rewrite qn_0; cbn; ring|rewrite IH; unfold aff; ring]. Qed.
Lemma qmean_aff l : qmean (map aff l) = option_map aff (qmean l).
Proof.
  destruct l as [|x l]; [reflexivity|]. unfold qmean. cbn [map option_map]. f_equal.
  change (aff x :: map aff l) with (map aff (x :: l)). rewrite sum_aff, map_length. unfold aff. field. apply qn_ne. discriminate.
Qed.
Lemma filter_aff (p q : Qc -> bool) l : (forall x, p (aff x) = q x) -> filter p (map aff l) = map aff (filter q l).
Proof. intro H. induction l as [|x l IH]; cbn; [reflexivity|]. rewrite H. destruct (q x); cbn; rewrite IH; reflexivity. Qed.
Lemma variance_aff m l : variance (aff m) (map aff l) = sq k * variance m l.
Proof.
  unfold variance. rewrite map_length, map_map. rewrite (sum_ext (fun x => sq (aff x - aff m)) (fun x => sq k * sq (x - m))) by (intros; unfold aff, sq; ring).
  rewrite (sum_scale (sq k)). unfold Qcdiv. ring.
Qed.
Lemma within_aff x c cut va kk : within_root (aff x - aff c) cut (sq k * va) kk = within_root (x - c) cut va kk.
Proof.
  unfold within_root. destruct (qlt cut 0); [reflexivity|]. unfold aff.
  replace (sq ((k * x + t - (k * c + t)) * kk)) with (k * (k * sq ((x - c) * kk))) by (unfold sq; ring).
  replace (sq cut * (sq k * va)) with (k * (k * (sq cut * va))) by (unfold sq; ring). rewrite !scale_le. reflexivity.
Qed.
(** When the same case of the deviation applies *)
Lemma mean_aff cut l :
  (forall c, median l = Some c -> max_abs_dev (aff c) (map aff l) = option_map (fun m => k * m) (max_abs_dev c l)) ->
  mean cut (map aff l) = match mean cut l with Num v => Num (aff v) | e => e end.
Proof.
  intro H. unfold mean. rewrite median_aff. destruct (median l) as [c|]; [|reflexivity]. cbn [option_map]. rewrite (H c eq_refl).
  destruct (max_abs_dev c l) as [mad|]; [|reflexivity]. cbn [option_map].
  rewrite (filter_aff _ (fun x => qle (Qcabs (x - c)) (cut * mad))).
  - rewrite qmean_aff. destruct (qmean (filter (fun x => qle (Qcabs (x - c)) (cut * mad)) l)) as [m1|]; [|reflexivity]. cbn [option_map].
    rewrite variance_aff. set (va := variance m1 _). clearbody va.
    rewrite (filter_aff _ (fun x => within_root (x - c) cut va (correction cut))) by (intro x; apply within_aff).
    rewrite qmean_aff, map_length. destruct (qmean _); [|reflexivity]. cbn [option_map]. destruct (3 <? _)%nat; reflexivity.
  - intro x. rewrite abs_aff. replace (cut * (k * mad)) with (k * (cut * mad)) by ring. apply scale_le.
Qed.
Lemma u2_aff c mad x : mad <> 0 -> u2 (aff c) (k * mad) (aff x) = u2 c mad x.
Proof. intro H. unfold u2, aff, sq. field. repeat split; try assumption; [discriminate|apply k_ne]. Qed.
Lemma std_aff l : (forall c, median l = Some c -> max_abs_dev (aff c) (map aff l) = option_map (fun m => k * m) (max_abs_dev c l)) ->
  (forall c mad, median l = Some c -> max_abs_dev c l = Some mad -> qlt (k * mad) epsilon = qlt mad epsilon) ->
  std false (map aff l) = match std false l with Num v => Num (sq k * v) | e => e end.
Proof.
  intros H H2. unfold std. rewrite median_aff. destruct (median l) as [c|] eqn:Ec; [|reflexivity]. cbn [option_map]. rewrite (H c eq_refl).
  destruct (max_abs_dev c l) as [mad|] eqn:Em; [|reflexivity]. cbn [option_map]. rewrite (H2 c mad eq_refl Em).
  destruct (qlt mad epsilon) eqn:Q; [f_equal; ring|]. apply qlt_false in Q.
  assert (N : mad <> 0) by (intros ->; assert (E := eps_pos); exact (Qclt_not_le _ _ E Q)).
  unfold std_core. rewrite (filter_aff _ (fun x => qle (u2 c mad x) 1)) by (intro x; rewrite u2_aff by exact N; reflexivity).
  rewrite !map_length, !map_map. destruct (length _ <? 3)%nat; [reflexivity|].
  set (good := filter _ l).
  rewrite (sum_ext (fun x => sq (aff x - aff c) * sq (sq (1 - u2 (aff c) (k * mad) (aff x)))) (fun x => sq k * (sq (x - c) * sq (sq (1 - u2 c mad x))))).
  2:{ intros x _. rewrite u2_aff by exact N. unfold aff, sq. ring. }
  rewrite (sum_ext (fun x => (1 - u2 (aff c) (k * mad) (aff x)) * (1 - dec 5 1 * u2 (aff c) (k * mad) (aff x))) (fun x => (1 - u2 c mad x) * (1 - dec 5 1 * u2 c mad x))).
  2:{ intros x _. rewrite u2_aff by exact N. reflexivity. }
  rewrite (sum_scale (sq k)). set (num := qsum (map (fun x => sq (x - c) * _) good)). set (den := qsum _). clearbody num den.
  destruct (Qc_eq_dec (den * (den - 1)) 0) as [E|E].
  - destruct (Qc_eq_dec num 0) as [->|F].
    + destruct (Qc_eq_dec (sq k * 0) 0) as [G|G]; [f_equal; ring|]. exfalso. apply G. ring.
    + destruct (Qc_eq_dec (sq k * num) 0) as [G|G]; [|reflexivity]. exfalso. apply Qcmult_integral in G. destruct G as [G|G]; [|exact (F G)].
      assert (T := sq_pos k k_ne). rewrite G in T. exact (Qclt_not_eq _ _ T eq_refl).
  - replace (qn (length l) * (sq k * num) / (den * (den - 1))) with (sq k * (qn (length l) * num / (den * (den - 1)))) by (unfold Qcdiv; ring).
    set (z := qn (length l) * num / (den * (den - 1))). clearbody z.
    assert (T : qlt 0 (sq k * z) = qlt 0 z).
    { unfold qlt. f_equal. replace (sq k * z) with (k * (k * z)) by (unfold sq; ring). assert (U := scale_le (k * z) 0). unfold qle in U. rewrite Qcmult_0_r in U. rewrite U.
      assert (V := scale_le z 0). unfold qle in V. rewrite Qcmult_0_r in V. exact V. }
    rewrite T. destruct (qlt 0 z); [reflexivity|f_equal; ring].
Qed.
End Affine.

Lemma mad_moved t c l : max_abs_dev (aff 1 t c) (map (aff 1 t) l) = option_map (fun m => 1 * m) (max_abs_dev c l).
Proof.
  unfold max_abs_dev. rewrite devs_aff by reflexivity.
  replace (map (fun x => 1 * x) (devs c l)) with (devs c l) by (rewrite <- map_id at 1; apply map_ext; intro; ring).
  destruct (median _) as [m|]; [|reflexivity]. destruct (qlt _ _); [destruct (qmean _)|]; cbn [option_map]; try reflexivity; f_equal; ring.
Qed.
Lemma moved_aff t l : moved t l = map (aff 1 t) l. Proof. apply map_ext. intro. unfold aff. ring. Qed.
Lemma stretched_aff k l : stretched k l = map (aff k 0) l. Proof. apply map_ext. intro. unfold aff. ring. Qed.
Theorem mean_moved cut t l : mean cut (moved t l) = match mean cut l with Num v => Num (v + t) | e => e end.
Proof.
  rewrite moved_aff, (mean_aff 1 t) by (try reflexivity; intros; apply mad_moved).
  destruct (mean cut l); try reflexivity. unfold aff. f_equal. ring.
Qed.
Theorem std_moved t l : std false (moved t l) = std false l.
Proof.
  rewrite moved_aff, (std_aff 1 t).
  - destruct (std false l); try reflexivity. f_equal. unfold sq. ring.
  - reflexivity.
  - intros. apply mad_moved.
  - intros. f_equal. ring.
Qed.
Lemma mad_stretched k c l : 0 < k -> spread_out l -> spread_out (stretched k l) ->
  max_abs_dev (aff k 0 c) (map (aff k 0) l) = option_map (fun m => k * m) (max_abs_dev c l).
Proof.
  intros K S1 S2. unfold max_abs_dev.
  assert (E : median (devs (aff k 0 c) (map (aff k 0) l)) = option_map (aff k 0) (median (devs c l))).
  { rewrite devs_aff by exact K. rewrite <- median_aff by exact K. f_equal. apply map_ext. intro. unfold aff. ring. }
  rewrite stretched_aff in S2.
  destruct (median (devs c l)) as [m|] eqn:Em; cbn [option_map] in E; rewrite E; [|reflexivity].
  assert (A := spread_mad _ _ _ S1 Em). assert (B := spread_mad _ _ _ S2 E).
  apply qlt_false in A, B. rewrite A, B. cbn [option_map]. f_equal. unfold aff, Qcdiv. ring.
Qed.
Theorem mean_stretched cut k l : 0 < k -> spread_out l -> spread_out (stretched k l) ->
  mean cut (stretched k l) = match mean cut l with Num v => Num (k * v) | e => e end.
Proof.
  intros K S1 S2. rewrite stretched_aff, (mean_aff k 0 K) by (intros; apply mad_stretched; assumption).
  destruct (mean cut l); try reflexivity. unfold aff. f_equal. ring.
Qed.
Theorem std_stretched k l : 0 < k -> spread_out l -> spread_out (stretched k l) ->
  std false (stretched k l) = match std false l with Num v => Num (k * k * v) | e => e end.
Proof.
  intros K S1 S2. rewrite stretched_aff, (std_aff k 0 K).
  - destruct (std false l); reflexivity.
  - intros. apply mad_stretched; assumption.
  - intros c mad Hc Hm. unfold max_abs_dev in Hm.
    destruct (median (devs c l)) as [m|] eqn:Em; [|discriminate].
    assert (A := spread_mad _ _ _ S1 Em). assert (A' := A). apply qlt_false in A'. rewrite A' in Hm. injection Hm as <-.
    assert (E : median (devs (aff k 0 c) (map (aff k 0) l)) = option_map (aff k 0) (median (devs c l))).
    { rewrite devs_aff by exact K. rewrite <- median_aff by exact K. f_equal. apply map_ext. intro. unfold aff. ring. }
    rewrite stretched_aff in S2. rewrite Em in E. cbn [option_map] in E. assert (B := spread_mad _ _ _ S2 E).
    rewrite A'. apply qlt_false. replace (k * (m / dec 6745 10000)) with (aff k 0 m / dec 6745 10000) by (unfold aff, Qcdiv; ring). exact B.
Qed.
