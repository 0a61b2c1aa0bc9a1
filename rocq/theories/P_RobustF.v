(** Fits of a line and of polynomials, spectral kurtosis. *)
From Coq Require Import List ZArith QArith Qcanon Qcabs Bool Arith Lia Lqa Permutation Sorted.
From Verif Require Import M_Robust S_Robust P_Robust P_RobustA P_RobustB P_RobustC P_RobustD P_RobustE.
Import ListNotations.
Open Scope Qc_scope.

(** The median of multiples *)
Lemma sorted_rev_opp s : sorted s -> sorted (rev (map Qcopp s)).
Proof.
  unfold sorted. induction 1 as [|y s So IH F]; cbn; [constructor|].
  assert (A : forall l z, StronglySorted Qcle l -> (forall x, In x l -> x <= z) -> StronglySorted Qcle (l ++ [z])).
  { induction l as [|x l IHl]; intros z S B; cbn; [repeat constructor|]. inversion S; subst. constructor.
    - apply IHl; [assumption|]. intros w Hw. apply B. right. exact Hw.
    - rewrite Forall_forall in *. intros w Hw. apply in_app_or in Hw. destruct Hw as [Hw|[<-|[]]]; [apply H2, Hw|apply B; left; reflexivity]. }
  apply A; [exact IH|]. intros x Hx. apply in_rev in Hx. apply in_map_iff in Hx. destruct Hx as (w & <- & Hw).
  rewrite Forall_forall in F. specialize (F w Hw). revert F. clear. qcl.
Qed.
Lemma sort_opp l : sort (map Qcopp l) = rev (map Qcopp (sort l)).
Proof.
  apply sorted_unique; [apply sort_sorted|apply sorted_rev_opp, sort_sorted|].
  rewrite <- (sort_perm (map Qcopp l)). rewrite <- Permutation_rev. apply Permutation_map, sort_perm.
Qed.
Lemma median_intro l : l <> [] -> median l = Some ((item (sort l) ((length l - 1) / 2) + item (sort l) (length l / 2)) / qn 2).
Proof. intro N. destruct (median_exists l N) as [m E]. rewrite E. apply median_mid in E. destruct E as [_ ->]. reflexivity. Qed.
Lemma item_opp s i : (i < length s)%nat -> item (rev (map Qcopp s)) i = - item s (length s - 1 - i).
Proof.
  intro H. unfold item. rewrite rev_nth by (rewrite map_length; exact H). rewrite map_length.
  rewrite (nth_indep _ 0 (- 0)) by (rewrite map_length; lia). rewrite map_nth. do 2 f_equal. lia.
Qed.
Lemma median_opp l : median (map Qcopp l) = option_map Qcopp (median l).
Proof.
  destruct l as [|x l]; [reflexivity|]. set (l' := x :: l). assert (N : l' <> []) by discriminate.
  rewrite (median_intro l' N). rewrite median_intro by discriminate. cbn [option_map]. f_equal. rewrite map_length, sort_opp.
  assert (L : (length l' <> 0)%nat) by discriminate. assert (B := half_of _ L).
  rewrite !item_opp by (rewrite sort_length; lia). rewrite !sort_length.
  assert (R := Nat.div_mod (length l') 2 ltac:(lia)). assert (length l' mod 2 < 2)%nat by (apply Nat.mod_upper_bound; lia).
  assert (R2 := Nat.div_mod (length l' - 1) 2 ltac:(lia)). assert ((length l' - 1) mod 2 < 2)%nat by (apply Nat.mod_upper_bound; lia).
  replace (length l' - 1 - (length l' - 1) / 2)%nat with (length l' / 2)%nat by lia.
  replace (length l' - 1 - length l' / 2)%nat with ((length l' - 1) / 2)%nat by lia.
  rewrite !half_eq. ring.
Qed.
Lemma median_const (c : Qc) (l : list Qc) : l <> [] -> (forall x, In x l -> x = c) -> median l = Some c.
Proof.
  intros N H. rewrite (median_intro l N). f_equal. assert (L : (length l <> 0)%nat) by (destruct l; [congruence|discriminate]). assert (B := half_of _ L).
  assert (I : forall i, (i < length l)%nat -> item (sort l) i = c).
  { intros i Hi. apply H. eapply Permutation_in; [symmetry; apply sort_perm|]. apply item_in. rewrite sort_length. exact Hi. }
  rewrite !I by lia. rewrite half_eq. qcl.
Qed.
Lemma median_scaled p l : median (map (fun x => p * x) l) = option_map (fun x => p * x) (median l).
Proof.
  destruct l as [|x l]; [reflexivity|]. set (l' := x :: l). assert (N : l' <> []) by discriminate.
  assert (Pos : forall k, 0 < k -> forall m, median (map (fun x => k * x) m) = option_map (fun x => k * x) (median m)).
  { intros k K m. assert (A := median_aff k 0 K m). rewrite (map_ext _ (fun x => k * x)) in A by (intro; unfold aff; ring). rewrite A.
    destruct (median m); [|reflexivity]. cbn. f_equal. unfold aff. ring. }
  destruct (Qc_dec p 0) as [[L|L]|E].
  - replace (map (fun x => p * x) l') with (map Qcopp (map (fun x => (- p) * x) l')) by (rewrite map_map; apply map_ext; intro; ring).
    rewrite median_opp, Pos by (revert L; clear; qcx). destruct (median l'); [|reflexivity]. cbn. f_equal. ring.
  - apply Pos. exact L.
  - subst p. destruct (median_exists _ N) as [m ->]. cbn [option_map]. rewrite Qcmult_0_l. apply median_const; [discriminate|].
    intros y Hy. apply in_map_iff in Hy. destruct Hy as (z & <- & _). ring.
Qed.

(** Sorting points of a line *)
Lemma insert2_line f x l : insert2 (x, f x) (map (fun v => (v, f v)) l) = map (fun v => (v, f v)) (insert x l).
Proof. induction l as [|y l IH]; [reflexivity|]. cbn. destruct (qle x y); [reflexivity|]. cbn. rewrite IH. reflexivity. Qed.
Lemma sort2_line f l : sort2 (map (fun v => (v, f v)) l) = map (fun v => (v, f v)) (sort l).
Proof. induction l as [|x l IH]; [reflexivity|]. cbn [map sort2 fold_right sort]. fold (sort2 (map (fun v => (v, f v)) l)). rewrite IH. apply insert2_line. Qed.
Lemma combine_line {A B} (f : A -> B) l : combine l (map f l) = map (fun v => (v, f v)) l.
Proof. induction l; cbn; congruence. Qed.

Lemma two_terms (f : Qc -> Qc) l a b : (forall x, 0 <= f x) -> In a l -> In b l -> a <> b -> f a + f b <= qsum (map f l).
Proof.
  intros P. assert (One : forall m c, In c m -> f c <= qsum (map f m)).
  { induction m as [|x m IH]; intros c I; [contradiction|]. cbn [map]. rewrite qsum_cons. destruct I as [->|I].
    - assert (0 <= qsum (map f m)).
      { replace 0 with (qsum (map (fun _ : Qc => 0) m)) by (rewrite sum_const; ring). apply sum_le. intros. apply P. }
      revert H. generalize (f c), (qsum (map f m)). qcx.
    - specialize (IH c I). assert (Q := P x). revert IH Q. generalize (f c), (f x), (qsum (map f m)). qcx. }
  induction l as [|x l IH]; intros Ia Ib N; [contradiction|]. cbn [map]. rewrite qsum_cons.
  destruct Ia as [->|Ia], Ib as [->|Ib].
  - congruence.
  - assert (T := One l b Ib). revert T. generalize (f a), (f b), (qsum (map f l)). qcl.
  - assert (T := One l a Ia). revert T. generalize (f a), (f b), (qsum (map f l)). qcl.
  - specialize (IH Ia Ib N). assert (Q := P x). revert IH Q. generalize (f a), (f b), (f x), (qsum (map f l)). qcx.
Qed.
Lemma far_apart x0 l a b : In a l -> In b l -> dec 2 10000000000 <= b - a -> epsilon <= qsum (map (fun v => sq (v - x0)) l).
Proof.
  intros Ia Ib D. assert (N : a <> b) by (intros ->; revert D; clear; replace (b - b) with (dec 0 1) by (apply Qc_is_canon; qc_down; ring); intro D; apply D; reflexivity).
  eapply Qcle_trans; [|apply (two_terms (fun v => sq (v - x0)) l a b); try assumption; intro; apply sq_nonneg].
  revert D. clear. intro D. assert (S : sq (dec 2 10000000000) <= sq (b - a)) by (apply sq_le; revert D; qcl).
  assert (Q := sq_nonneg (a - x0 + (b - x0))).
  replace (sq (a - x0 + (b - x0))) with (dec 2 1 * (sq (a - x0) + sq (b - x0)) - sq (b - a)) in Q by (unfold sq; change (dec 2 1) with (1 + 1); ring).
  revert Q S. generalize (sq (b - a)). unfold epsilon.
  generalize (sq (a - x0)), (sq (b - x0)). rewrite ?zero_dec. qcl.
Qed.

(** A perfect fit *)
Lemma zeros_std l : l <> [] -> (forall x, In x l -> x = 0) -> std true l = Num 0.
Proof.
  intros N Z. unfold std, max_abs_dev.
  assert (D : forall x, In x (devs 0 l) -> x = 0).
  { intros x H. apply in_map_iff in H. destruct H as (y & <- & H). rewrite (Z y H). apply Qc_is_canon. reflexivity. }
  assert (N' : devs 0 l <> []) by (destruct l; [congruence|discriminate]).
  rewrite (median_const 0 _ N' D). destruct (qmean_some _ N') as [a E]. rewrite E.
  assert (A : a = 0).
  { assert (M := mean_bounds _ _ 0 0 E). assert (0 <= a <= 0) by (apply M; intros x Hx; rewrite (D x Hx); split; apply Qcle_refl). apply qle_antisym; apply H. }
  subst a. assert (Q1 : qlt (0 / dec 6745 10000) epsilon = true) by reflexivity. rewrite Q1.
  assert (Q2 : qlt (0 / dec 8 10) epsilon = true) by reflexivity. rewrite Q2. reflexivity.
Qed.
Lemma perfect_fit (l : list Qc) (f g : Qc -> Qc) : l <> [] -> (forall x, In x l -> f x = g x) -> checkfit (map f l) (map g l) = Some (false, 0, 0, 0%nat, []).
Proof.
  intros N E. unfold checkfit.
  assert (D : map (fun p => fst p - snd p) (combine (map f l) (map g l)) = map (fun x => f x - g x) l).
  { clear. induction l; cbn; congruence. }
  rewrite D, zeros_std; [reflexivity|destruct l; [congruence|discriminate]|].
  intros x H. apply in_map_iff in H. destruct H as (y & <- & H). rewrite (E y H). ring.
Qed.
Lemma centred_sum l x0 : qmean l = Some x0 -> qsum (map (fun v => v - x0) l) = 0.
Proof.
  intro H. apply qmean_mul in H. destruct H as [E _].
  rewrite (sum_ext (fun v => v - x0) (fun v => v + - x0)) by (intros; ring). rewrite (sum_plus (fun v => v)), map_self, sum_const, <- E. ring.
Qed.
Theorem linefit_exact xs p q a b : In a xs -> In b xs -> dec 2 10000000000 <= b - a ->
  linefit xs (map (fun x => p * x + q) xs) = Line p q.
Proof.
  intros Ia Ib D. assert (N : xs <> []) by (destruct xs; [contradiction|discriminate]).
  destruct (qmean_some xs N) as [x0 Ex].
  assert (Ey : qmean (map (fun x => p * x + q) xs) = Some (p * x0 + q)).
  { assert (M := qmean_mul _ _ Ex). destruct M as [M _].
    assert (S : qsum (map (fun x => p * x + q) xs) = p * qsum xs + q * qn (length xs)).
    { rewrite (sum_plus (fun x => p * x)), (sum_scale p (fun x => x)), map_self, sum_const. reflexivity. }
    unfold qmean. destruct xs as [|x xs]; [congruence|]. cbn [map]. change (p * x + q :: map (fun x => p * x + q) xs) with (map (fun x => p * x + q) (x :: xs)).
    f_equal. rewrite S, map_length, <- M. field. apply qn_ne. discriminate. }
  unfold linefit. rewrite Ex, Ey. rewrite map_map.
  set (x := map (fun v => v - x0) xs).
  assert (Hy : map (fun v => p * v + q - (p * x0 + q)) xs = map (fun v => p * v) x) by (unfold x; rewrite map_map; apply map_ext; intro; ring).
  rewrite Hy. assert (Nx : x <> []) by (unfold x; destruct xs; [congruence|discriminate]).
  assert (Sx : qsum x = 0) by (apply centred_sum; exact Ex).
  assert (Sxx : epsilon <= qsum (map sq x)) by (unfold x; rewrite map_map; exact (far_apart x0 xs a b Ia Ib D)).
  assert (Plain : match least_squares x (map (fun v => p * v) x) with
    | Some (slope, yint) => after_fit x0 (p * x0 + q) slope yint (checkfit (map (fun v => p * v) x) (map (fun v => yint + slope * v) x))
    | None => Line 0 0 end = Line p q).
  { unfold least_squares. rewrite Sx. rewrite (sum_scale p (fun v => v)), map_self, Sx, combine_line, map_map. cbn [fst snd].
    replace (qsum (map (fun v => v * (p * v)) x)) with (p * qsum (map sq x)) by (rewrite <- (sum_scale p sq); apply sum_ext; intros; unfold sq; ring).
    set (sxx := qsum (map sq x)) in *. replace (sxx - 0 * 0) with sxx by ring.
    assert (Ps : 0 < sxx) by (eapply Qclt_le_trans; [apply eps_pos|exact Sxx]).
    assert (Q : qlt (Qcabs sxx) epsilon = false) by (apply qlt_false; rewrite Qcabs_pos by (apply Qclt_le_weak; exact Ps); exact Sxx). rewrite Q.
    assert (Ns : sxx <> 0) by (intro E; rewrite E in Ps; exact (Qclt_not_eq _ _ Ps eq_refl)).
    replace ((p * sxx - 0 * (p * 0)) / sxx) with p by (field; exact Ns).
    replace ((sxx * (p * 0) - 0 * (p * sxx)) / sxx) with 0 by (field; exact Ns).
    rewrite (perfect_fit x (fun v => p * v) (fun v => 0 + p * v)); [|exact Nx|intros; ring].
    cbn [after_fit Nat.ltb Nat.leb]. f_equal. ring. }
  destruct (5 <? length xs)%nat eqn:L5; [|exact Plain]. apply Nat.ltb_lt in L5.
  rewrite combine_line, sort2_line, !map_map. cbn [fst snd]. rewrite map_self.
  set (u := sort x). assert (Lu : length u = length xs) by (unfold u, x; rewrite sort_length, map_length; reflexivity).
  set (half := (length xs / 2 - 1 + 1)%nat).
  assert (Hh : (1 <= half < length xs)%nat).
  { unfold half. assert (R := Nat.div_mod (length xs) 2 ltac:(lia)). assert (length xs mod 2 < 2)%nat by (apply Nat.mod_upper_bound; lia). lia. }
  clearbody half.
  rewrite firstn_map, skipn_map, !median_scaled.
  destruct (median_exists (firstn half u)) as [x1 E1]; [intro E; apply (f_equal (@length Qc)) in E; rewrite firstn_length, Lu in E; cbn [length] in E; clear -E Hh; lia|].
  destruct (median_exists (skipn half u)) as [x2 E2]; [intro E; apply (f_equal (@length Qc)) in E; rewrite skipn_length, Lu in E; cbn [length] in E; clear -E Hh; lia|].
  rewrite E1, E2. cbn [option_map].
  assert (Y : exists z1 z2, (if qlt (Qcabs (x2 - x1)) epsilon
     then (item u 0, item u (length xs - 1), item (map (fun v => p * v) u) 0, item (map (fun v => p * v) u) (length xs - 1))
     else (x1, x2, p * x1, p * x2)) = (z1, z2, p * z1, p * z2) /\ z2 - z1 <> 0).
  { destruct (qlt (Qcabs (x2 - x1)) epsilon) eqn:Q.
    - exists (item u 0), (item u (length xs - 1)). split.
      + assert (I : forall i, (i < length u)%nat -> item (map (fun v => p * v) u) i = p * item u i).
        { intros i Hi. unfold item. rewrite (nth_indep _ 0 (p * 0)) by (rewrite map_length; exact Hi). apply (map_nth (fun v => p * v)). }
        rewrite !I by lia. reflexivity.
      + assert (So := sort_sorted x). fold u in So.
        assert (In1 : In (a - x0) u) by (unfold u; eapply Permutation_in; [apply sort_perm|]; unfold x; apply (in_map (fun v => v - x0)); exact Ia).
        assert (In2 : In (b - x0) u) by (unfold u; eapply Permutation_in; [apply sort_perm|]; unfold x; apply (in_map (fun v => v - x0)); exact Ib).
        apply (In_nth _ _ 0) in In1, In2. destruct In1 as (i & Hi & Ei), In2 as (j & Hj & Ej).
        assert (A1 := sorted_item u 0 i So ltac:(lia)). assert (A2 := sorted_item u j (length xs - 1) So ltac:(lia)).
        unfold item at 2 in A1. unfold item at 1 in A2. rewrite Ei in A1. rewrite Ej in A2.
        intro Z. revert Z A1 A2 D. clear. generalize (item u 0), (item u (length xs - 1)). intros y z Z A1 A2 D. rewrite zero_dec in Z. qc_eqs. qc_down. lra.
    - apply qlt_false in Q. exists x1, x2. split; [reflexivity|]. intro Z. rewrite Z in Q. revert Q. clear. intro Q. apply Q. reflexivity. }
  destruct Y as (z1 & z2 & -> & Z).
  destruct (Qc_eq_dec (z2 - z1) 0) as [E|_]; [contradiction|].
  replace ((p * z2 - p * z1) / (z2 - z1)) with p by (field; exact Z).
  rewrite (perfect_fit x (fun v => p * v) (fun v => p * z1 - p * z1 + p * v)); [|exact Nx|intros; ring].
  cbn [Nat.ltb Nat.leb]. exact Plain.
Qed.

(** The polynomial for the centred data is shifted back. *)
Theorem rescale_value c x0 y0 x : (2 <= length c <= 6)%nat -> poly_value (rescale c x0 y0) x = poly_value (rev c) (x - x0) + y0.
Proof.
  intro L. destruct c as [|c0 [|c1 [|c2 [|c3 [|c4 [|c5 [|c6 c]]]]]]]; cbn [length] in L; try lia; unfold rescale, poly_value; cbn [rev app fold_left];
  change (dec 2 1) with (1 + 1); change (dec 3 1) with (1 + 1 + 1); change (dec 4 1) with (1 + 1 + 1 + 1); change (dec 5 1) with (1 + 1 + 1 + 1 + 1);
  change (dec 6 1) with (1 + 1 + 1 + 1 + 1 + 1); change (dec 10 1) with (1 + 1 + 1 + 1 + 1 + 1 + 1 + 1 + 1 + 1); ring.
Qed.

(** Spectral kurtosis *)
Lemma sum_sq_shift m l : qsum (map (fun x => sq (x - m)) l) = qsum (map sq l) - (1 + 1) * m * qsum l + sq m * qn (length l).
Proof.
  rewrite (sum_ext (fun x => sq (x - m)) (fun x => sq x + (- (1 + 1) * m * x + sq m))) by (intros; unfold sq; ring).
  rewrite (sum_plus sq), (sum_plus (fun x => - (1 + 1) * m * x)), (sum_scale (- (1 + 1) * m) (fun x => x)), map_self, sum_const. ring.
Qed.
Lemma cauchy_eq l : l <> [] -> qn (length l) * qsum (map sq l) - sq (qsum l) = qn (length l) * qsum (map (fun x => sq (x - qsum l / qn (length l))) l).
Proof.
  intro N. assert (H : qn (length l) <> 0) by (apply qn_ne; destruct l; [congruence|discriminate]). rewrite sum_sq_shift. revert H. generalize (qn (length l)), (qsum (map sq l)), (qsum l). intros a b d H. unfold sq. field. exact H.
Qed.
Lemma sum_nonneg (f : Qc -> Qc) l : (forall x, In x l -> 0 <= f x) -> 0 <= qsum (map f l).
Proof. intro H. replace 0 with (qsum (map (fun _ : Qc => 0) l)) by (rewrite sum_const; ring). apply sum_le. exact H. Qed.
Lemma sum_sq_le l : (forall x, In x l -> 0 <= x) -> qsum (map sq l) <= sq (qsum l).
Proof.
  induction l as [|x l IH]; intro H; [apply Qcle_refl|]. cbn [map]. rewrite !qsum_cons.
  assert (A := IH (fun y Hy => H y (or_intror Hy))). assert (B := H x (or_introl eq_refl)).
  assert (C : 0 <= qsum l) by (rewrite <- (map_self l); apply sum_nonneg; intros y Hy; apply H; right; exact Hy).
  assert (D := mul_nonneg _ _ B C). unfold sq in *. replace ((x + qsum l) * (x + qsum l)) with (x * x + (x * qsum l + x * qsum l) + qsum l * qsum l) by ring.
  revert A D. generalize (qsum (map (fun x => x * x) l)), (qsum l * qsum l), (x * qsum l), (x * x). clear. qcx.
Qed.
Lemma div_le a b c : 0 < b -> a <= c * b -> a / b <= c.
Proof. intros P H. assert (N : b <> 0) by (intro E; rewrite E in P; exact (Qclt_not_eq _ _ P eq_refl)). apply (Qcmult_lt_0_le_reg_r _ _ b); [exact P|]. replace (a / b * b) with a by (field; exact N). exact H. Qed.
Lemma le_div a b c : 0 < b -> c * b <= a -> c <= a / b.
Proof. intros P H. assert (N : b <> 0) by (intro E; rewrite E in P; exact (Qclt_not_eq _ _ P eq_refl)). apply (Qcmult_lt_0_le_reg_r _ _ b); [exact P|]. replace (a / b * b) with a by (field; exact N). exact H. Qed.
Section Kurtosis.
Context (x : list Qc) (N : Qc) (L : (2 <= length x)%nat) (P : forall v, In v x -> 0 <= v) (S : 0 < qsum x) (PN : 0 <= N).
Let M := qn (length x).
Lemma M_ge : dec 2 1 <= M. Proof. change (dec 2 1) with (qn 2). apply qn_le. exact L. Qed.
Lemma S2_pos : 0 < sq (qsum x). Proof. unfold sq. apply mul_pos; exact S. Qed.
Lemma M1_pos : 0 < M - 1. Proof. assert (H := M_ge). revert H. generalize M. clear. qcx. Qed.
Lemma MN_pos : 0 < M * N + 1.
Proof. assert (H : 0 <= M * N) by (apply mul_nonneg; [apply qn_nonneg|exact PN]). revert H. generalize (M * N). clear. qcx. Qed.
Lemma pos_ne a : 0 < a -> a <> 0. Proof. intros H E. rewrite E in H. exact (Qclt_not_eq _ _ H eq_refl). Qed.
Definition excess : Qc := M * qsum (map sq x) / sq (qsum x) - 1.
Lemma kurtosis_value : spectral_power x N = Some (excess * ((M * N + 1) / (M - 1))).
Proof.
  unfold spectral_power. fold M. destruct (Qc_eq_dec (sq (qsum x)) 0) as [E|_]; [exfalso; exact (pos_ne _ S2_pos E)|].
  destruct (Qc_eq_dec (M - 1) 0) as [E|_]; [exfalso; exact (pos_ne _ M1_pos E)|]. reflexivity.
Qed.
Lemma x_ne : x <> []. Proof. intros E. rewrite E in L. cbn in L. lia. Qed.
Lemma excess_low : 0 <= excess.
Proof.
  unfold excess. assert (H : 1 <= M * qsum (map sq x) / sq (qsum x)).
  { apply le_div; [exact S2_pos|]. rewrite Qcmult_1_l. assert (E := cauchy_eq x x_ne). fold M in E.
    assert (T : 0 <= M * qsum (map (fun v => sq (v - qsum x / M)) x)) by (apply mul_nonneg; [apply qn_nonneg|apply sum_nonneg; intros; apply sq_nonneg]).
    rewrite <- E in T. revert T. generalize (M * qsum (map sq x)), (sq (qsum x)). clear. qcx. }
  revert H. generalize (M * qsum (map sq x) / sq (qsum x)). clear. qcx.
Qed.
Lemma excess_high : excess <= M - 1.
Proof.
  unfold excess. assert (H : M * qsum (map sq x) / sq (qsum x) <= M).
  { apply div_le; [exact S2_pos|]. rewrite !(Qcmult_comm M). apply Qcmult_le_compat_r; [apply sum_sq_le, P|apply qn_nonneg]. }
  revert H. generalize (M * qsum (map sq x) / sq (qsum x)), M. clear. qcl.
Qed.
Lemma factor_pos : 0 < (M * N + 1) / (M - 1).
Proof.
  destruct (Qclt_le_dec 0 ((M * N + 1) / (M - 1))) as [|H]; [assumption|]. exfalso.
  assert (T : (M * N + 1) / (M - 1) * (M - 1) <= 0 * (M - 1)) by (apply Qcmult_le_compat_r; [exact H|apply Qclt_le_weak; exact M1_pos]).
  replace ((M * N + 1) / (M - 1) * (M - 1)) with (M * N + 1) in T by (field; exact (pos_ne _ M1_pos)). rewrite Qcmult_0_l in T. exact (Qclt_not_le _ _ MN_pos T).
Qed.
Theorem kurtosis_bounds : exists k, spectral_power x N = Some k /\ 0 <= k <= M * N + 1.
Proof.
  eexists. split; [exact kurtosis_value|]. assert (F := factor_pos). split.
  - apply mul_nonneg; [exact excess_low|apply Qclt_le_weak; exact F].
  - apply Qcle_trans with ((M - 1) * ((M * N + 1) / (M - 1))).
    + apply Qcmult_le_compat_r; [exact excess_high|apply Qclt_le_weak; exact F].
    + replace ((M - 1) * ((M * N + 1) / (M - 1))) with (M * N + 1) by (field; exact (pos_ne _ M1_pos)). apply Qcle_refl.
Qed.
Lemma sum_zero (f : Qc -> Qc) l : (forall v, In v l -> 0 <= f v) -> qsum (map f l) = 0 -> forall v, In v l -> f v = 0.
Proof.
  intros H Z v I. apply qle_antisym; [|apply H, I]. destruct (Qclt_le_dec 0 (f v)) as [Q|]; [|assumption]. exfalso.
  assert (T := sum_pos f l v H I Q). rewrite Z in T. exact (Qclt_not_eq _ _ T eq_refl).
Qed.
Theorem kurtosis_zero : spectral_power x N = Some 0 <-> forall v w, In v x -> In w x -> v = w.
Proof.
  rewrite kurtosis_value. assert (NZ := pos_ne _ factor_pos). assert (NS := pos_ne _ S2_pos).
  assert (NM : M <> 0) by (apply qn_ne; lia).
  assert (E : excess * sq (qsum x) = M * qsum (map (fun v => sq (v - qsum x / M)) x)).
  { assert (C := cauchy_eq x x_ne). fold M in C. rewrite <- C. unfold excess. field. exact NS. }
  split.
  - intro H. assert (Z : excess = 0).
    { assert (H' : excess * ((M * N + 1) / (M - 1)) = 0) by congruence. apply Qcmult_integral in H'. destruct H'; [assumption|contradiction]. }
    rewrite Z, Qcmult_0_l in E. symmetry in E. apply Qcmult_integral in E. destruct E as [E|E]; [contradiction|].
    assert (A := sum_zero (fun v => sq (v - qsum x / M)) x (fun v _ => sq_nonneg _) E).
    assert (B : forall v, In v x -> v = qsum x / M).
    { intros v Hv. specialize (A v Hv). unfold sq in A. apply Qcmult_integral in A. assert (D : v - qsum x / M = 0) by (destruct A; assumption).
      replace v with (v - qsum x / M + qsum x / M) by ring. rewrite D. ring. }
    intros v w Hv Hw. rewrite (B v Hv), (B w Hw). reflexivity.
  - intro H. f_equal. assert (Ex : exists v0, In v0 x) by (clear -L; destruct x as [|v0 r]; [cbn in L; lia|]; exists v0; left; reflexivity). destruct Ex as [v0 I0].
    assert (A : forall v, In v x -> v = v0) by (intros v Hv; apply H; assumption).
    assert (E1 : qsum x = v0 * M).
    { rewrite <- (map_self x). rewrite (sum_ext _ (fun _ => v0)) by (intros v Hv; apply A, Hv). apply sum_const. }
    assert (Z : excess * sq (qsum x) = 0).
    { rewrite E. rewrite (sum_ext _ (fun _ => 0)); [rewrite sum_const; ring|]. intros v Hv. rewrite (A v Hv), E1. unfold sq. field. exact NM. }
    apply Qcmult_integral in Z. destruct Z as [Z|Z]; [rewrite Z; ring|contradiction].
Qed.
End Kurtosis.
Theorem kurtosis_scale c x N : c <> 0 -> spectral_power (stretched c x) N = spectral_power x N.
Proof.
  intro C. unfold spectral_power, stretched. rewrite map_length, map_map. rewrite (sum_scale c (fun v => v)), map_self.
  rewrite (sum_ext (fun v => sq (c * v)) (fun v => sq c * sq v)) by (intros; unfold sq; ring). rewrite (sum_scale (sq c) sq).
  assert (C2 : sq c <> 0) by (intro E; unfold sq in E; apply Qcmult_integral in E; destruct E; contradiction).
  replace (sq (c * qsum x)) with (sq c * sq (qsum x)) by (unfold sq; ring).
  destruct (Qc_eq_dec (sq (qsum x)) 0) as [E|E].
  - destruct (Qc_eq_dec (sq c * sq (qsum x)) 0) as [|F]; [reflexivity|]. exfalso. apply F. rewrite E. ring.
  - destruct (Qc_eq_dec (sq c * sq (qsum x)) 0) as [F|_]; [exfalso; apply Qcmult_integral in F; destruct F; contradiction|].
    destruct (Qc_eq_dec (qn (length x) - 1) 0); [reflexivity|]. f_equal. f_equal. f_equal.
    revert C2 E. generalize (sq c), (sq (qsum x)), (qsum (map sq x)), (qn (length x)). intros a b d e C2 E. field. split; assumption.
Qed.

(** polyfit *)
Lemma polyval_value c x : polyval x c = poly_value (rev c) x.
Proof.
  unfold poly_value, polyval. rewrite <- fold_left_rev_right, rev_involutive. induction c as [|a c IH]; [reflexivity|]. cbn. rewrite IH. ring.
Qed.
Lemma perfect_self l : l <> [] -> checkfit l l = Some (false, 0, 0, 0%nat, []).
Proof. intro N. rewrite <- (map_self l). apply perfect_fit; [exact N|reflexivity]. Qed.
Theorem polyfit_through fit x y order : (1 <= order)%nat -> x <> [] -> length y = length x -> (Z.of_nat (length x) < 10000)%Z ->
  (forall u v, length u = length v -> length (fit u v order) = S order) ->
  (forall s t, let u := map (fun a => a - s) x in let v := map (fun a => a - t) y in map (poly_value (rev (fit u v order))) u = v) ->
  exists c, polyfit fit x y order = Poly c /\ map (poly_value c) x = y.
Proof.
  intros O Nx L Ln F P. assert (Ny : y <> []) by (intros ->; destruct x; [congruence|discriminate]).
  unfold polyfit. destruct (qmean x) as [mx|] eqn:Ex; [|destruct x; [congruence|discriminate]]. destruct (qmean y) as [my|] eqn:Ey; [|destruct y; [congruence|discriminate]].
  assert (Q : (10000 <=? Z.of_nat (length x))%Z = false) by (apply Z.leb_gt; exact Ln). rewrite Q. clear Q.
  set (x0 := if (order <? 6)%nat then mx else 0). set (y0 := if (order <? 6)%nat then my else 0).
  assert (T := P x0 y0). cbn zeta in T. rewrite (map_ext _ _ (polyval_value _)), T.
  assert (C := F (map (fun v => v - x0) x) (map (fun v => v - y0) y) ltac:(rewrite !map_length; lia)).
  rewrite perfect_self by (intros E; destruct y; [congruence|discriminate]).
  eexists. split; [reflexivity|].
  set (c := fit _ _ _) in *. clearbody c.
  assert (V : forall a, poly_value (rescale c x0 y0) a = poly_value (rev c) (a - x0) + y0).
  { intro a. destruct (order <? 6)%nat eqn:Eo.
    - apply Nat.ltb_lt in Eo. apply rescale_value. lia.
    - apply Nat.ltb_ge in Eo. unfold x0, y0. destruct c as [|c0 [|c1 [|c2 [|c3 [|c4 [|c5 [|c6 c]]]]]]]; cbn [length] in C; try lia. unfold rescale.
      replace (a - 0) with a by ring. ring. }
  rewrite (map_ext _ _ V). rewrite map_map in T. clear -T L.
  revert y L T. induction x as [|a x IH]; intros [|b y] L T; try discriminate; [reflexivity|]. cbn [map] in *. injection T as T1 T2. f_equal.
  - rewrite T1. ring.
  - apply IH; [|exact T2]. cbn in L. lia.
Qed.
