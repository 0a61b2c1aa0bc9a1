(** Proofs about the conversions of radio engineering. *)
From Coq Require Import Reals Lra ZArith.
From Verif Require Import M_Py M_Rf S_Rf.
Open Scope R_scope.

Lemma p10 n : 0 < 10 ^ n. Proof. apply pow_lt. lra. Qed.
Lemma kB_eq : kB = boltzmann. Proof. unfold kB, boltzmann. field. Qed.
Lemma Jy_eq : Jy = jansky. Proof. unfold Jy, jansky. field. Qed.
Lemma kB_pos : 0 < kB. Proof. unfold kB. pose proof (p10 29). apply Rdiv_lt_0_compat; lra. Qed.
Lemma Jy_pos : 0 < Jy. Proof. unfold Jy. apply Rinv_0_lt_compat, p10. Qed.
Lemma K_pos : 0 < K_per_Jy. Proof. unfold K_per_Jy. apply Rinv_0_lt_compat, Jy_pos. Qed.
Lemma K_Jy : K_per_Jy * Jy = 1. Proof. unfold K_per_Jy. pose proof Jy_pos. field. lra. Qed.
Lemma c_pos : 0 < speedOfLight. Proof. unfold speedOfLight. lra. Qed.
Lemma ln10_pos : 0 < ln 10. Proof. rewrite <- ln_1. apply ln_increasing; lra. Qed.
Lemma pow10_pos x : 0 < pow10 x. Proof. apply exp_pos. Qed.
Lemma ln_pow10 x : ln (pow10 x) = x * ln 10. Proof. unfold pow10, Rpower. apply ln_exp. Qed.
Lemma log10_pos x : 0 < x -> log10 x = Ok (ln x / ln 10). Proof. intro H. unfold log10. destruct (Rlt_dec 0 x); [reflexivity|contradiction]. Qed.
Lemma log10_neg x : x <= 0 -> log10 x = Raise ValueError. Proof. intro H. unfold log10. destruct (Rlt_dec 0 x); [lra|reflexivity]. Qed.
Lemma log_pow x : log10 (pow10 x) = Ok x. Proof. rewrite log10_pos by apply pow10_pos. rewrite ln_pow10. f_equal. pose proof ln10_pos. field. lra. Qed.
Lemma pow_log x y : log10 x = Ok y -> pow10 y = x. Proof. unfold log10. destruct (Rlt_dec 0 x) as [P|]; [|discriminate]. intro H. injection H as <-. unfold pow10, Rpower. pose proof ln10_pos. replace (ln x / ln 10 * ln 10) with (ln x) by (field; lra). apply exp_ln. exact P. Qed.
Lemma sq_pos f : f <> 0 -> 0 < f ^ 2. Proof. intro H. assert (0 < f * f) by (apply Rsqr_pos_lt; exact H). cbn. lra. Qed.
Lemma decibels_pow10 d : decibels (pow10 (d / 10)) d. Proof. split; [apply pow10_pos|]. unfold pow10, Rpower. reflexivity. Qed.
Lemma decibels_fun r d : decibels r d -> r = pow10 (d / 10). Proof. intros [_ H]. rewrite <- H. reflexivity. Qed.

(** the area ratio of a gain *)
Definition ratio (g f : R) : R := 8 * PI * kB * f ^ 2 / speedOfLight ^ 2 * (g * K_per_Jy).
Lemma ratio_of d f : f <> 0 -> ratio (dBi_to_gain d (Num f)) f = pow10 (d / 10).
Proof.
  intro H. unfold ratio, dBi_to_gain, make_quantity. pose proof kB_pos. pose proof K_pos. pose proof c_pos. pose proof PI_RGT_0. field. repeat split; lra.
Qed.
Lemma of_ratio g f d : f <> 0 -> ratio g f = pow10 (d / 10) -> dBi_to_gain d (Num f) = g.
Proof.
  intros H E. unfold dBi_to_gain, make_quantity. rewrite <- E. unfold ratio. pose proof kB_pos. pose proof K_pos. pose proof c_pos. pose proof PI_RGT_0. field. repeat split; lra.
Qed.
Lemma factor_pos f : f <> 0 -> 0 < 8 * PI * kB * f ^ 2 / speedOfLight ^ 2 * K_per_Jy.
Proof. intro H. pose proof kB_pos. pose proof K_pos. pose proof (sq_pos _ H). pose proof PI_RGT_0. assert (S2 : 0 < speedOfLight ^ 2) by (apply pow_lt, c_pos). apply Rmult_lt_0_compat; [|assumption]. apply Rdiv_lt_0_compat; [|assumption]. apply Rmult_lt_0_compat; [|assumption]. apply Rmult_lt_0_compat; [|assumption]. lra. Qed.
Lemma ratio_eq g f : ratio g f = g * (8 * PI * kB * f ^ 2 / speedOfLight ^ 2 * K_per_Jy).
Proof. unfold ratio. ring. Qed.
Lemma ratio_pos g f : f <> 0 -> (0 < ratio g f <-> 0 < g).
Proof.
  intro H. rewrite ratio_eq. pose proof (factor_pos f H) as F. split; intro P; [|apply Rmult_lt_0_compat; assumption]. apply Rmult_lt_reg_r with (1 := F). rewrite Rmult_0_l. exact P.
Qed.
Lemma gain_dBi g f : gain_to_dBi (Num g) (Num f) = bind (log10 (ratio g f)) (fun l => Ok (10 * l)).
Proof. unfold gain_to_dBi, make_quantity, ratio. rewrite Rmult_1_r. reflexivity. Qed.
Lemma ratio_zero g : ratio g 0 = 0.
Proof. rewrite ratio_eq. replace (0 ^ 2) with 0 by ring. unfold Rdiv. ring. Qed.
Lemma round_dBi d f : f <> 0 -> gain_to_dBi (Num (dBi_to_gain d (Num f))) (Num f) = Ok d.
Proof. intro H. rewrite gain_dBi, ratio_of by exact H. rewrite log_pow. cbn [bind]. f_equal. field. Qed.
Lemma round_gain g f d : gain_to_dBi (Num g) (Num f) = Ok d -> dBi_to_gain d (Num f) = g.
Proof.
  rewrite gain_dBi. destruct (log10 (ratio g f)) as [y|e] eqn:E; [|discriminate]. cbn [bind]. intro H. injection H as <-. assert (F : f <> 0). { intros ->. rewrite ratio_zero, log10_neg in E by lra. discriminate. }
  apply of_ratio; [exact F|]. apply pow_log in E. rewrite <- E. f_equal. field.
Qed.
Lemma domain g f : (exists d, gain_to_dBi (Num g) (Num f) = Ok d) /\ 0 < g /\ f <> 0 \/ gain_to_dBi (Num g) (Num f) = Raise ValueError /\ (g <= 0 \/ f = 0).
Proof.
  rewrite gain_dBi. destruct (Req_dec f 0) as [->|F].
  - right. rewrite ratio_zero, log10_neg by lra. cbn. split; [reflexivity|right; reflexivity].
  - destruct (Rlt_dec 0 g) as [G|G].
    + left. rewrite log10_pos by (apply ratio_pos; assumption). cbn. split; [eexists; reflexivity|split; assumption].
    + right. rewrite log10_neg; [cbn; split; [reflexivity|left; lra]|]. destruct (Rle_dec (ratio g f) 0) as [|N]; [assumption|]. exfalso. apply G, (ratio_pos g f F). lra.
Qed.
Lemma gain_value d f : f <> 0 -> dBi_to_gain d (Num f) = gain_of_area (pow10 (d / 10) * isotropic f).
Proof.
  intro H. unfold dBi_to_gain, gain_of_area, isotropic, wavelength, make_quantity. rewrite <- kB_eq, <- Jy_eq. unfold K_per_Jy, speedOfLight. pose proof kB_pos. pose proof Jy_pos. pose proof PI_RGT_0. field. repeat split; lra.
Qed.
Lemma area_value g : calculate_effective_area (Num g) = 2 * kB * (g * K_per_Jy).
Proof. reflexivity. Qed.
Lemma area_gain g m2 : calculate_effective_area (Num g) = m2 <-> gain_of_area m2 = g.
Proof.
  unfold calculate_effective_area, gain_of_area, make_quantity. rewrite <- kB_eq, <- Jy_eq. pose proof kB_pos. pose proof Jy_pos. unfold K_per_Jy. split; [intros <-|intros <-]; field; lra.
Qed.
Lemma power_dBm s b g : Jy_to_dBm (Num s) (Num b) (Num g) = bind (log10 (received s b (calculate_effective_area (Num g)) * 1000)) (fun l => Ok (10 * l)).
Proof. unfold Jy_to_dBm, received. cbn [make_quantity]. rewrite Jy_eq, Rmult_1_r. reflexivity. Qed.
Lemma area_pos g : 0 < calculate_effective_area (Num g) <-> 0 < g.
Proof.
  rewrite area_value. pose proof kB_pos. pose proof K_pos. assert (P : 0 < 2 * kB * K_per_Jy) by (repeat apply Rmult_lt_0_compat; lra). replace (2 * kB * (g * K_per_Jy)) with (g * (2 * kB * K_per_Jy)) by ring. split; intro Q; [|apply Rmult_lt_0_compat; assumption]. apply Rmult_lt_reg_r with (1 := P). rewrite Rmult_0_l. exact Q.
Qed.
Lemma area_nz g : g <> 0 -> calculate_effective_area (Num g) <> 0.
Proof. rewrite area_value. pose proof kB_pos. pose proof K_pos. intros G E. apply G. apply Rmult_eq_reg_r with (r := 2 * kB * K_per_Jy); [lra|]. apply Rgt_not_eq. repeat apply Rmult_lt_0_compat; lra. Qed.
Lemma back_Jy p b g : b <> 0 -> g <> 0 -> received (dBm_to_Jy p (Num b) (Num g)) b (calculate_effective_area (Num g)) * 1000 = pow10 (p / 10).
Proof.
  intros B G. pose proof (area_nz g G) as A. unfold dBm_to_Jy, received. rewrite <- Jy_eq. pose proof Jy_pos. cbn [make_quantity]. field. repeat split; try assumption; lra.
Qed.
Lemma round_dBm p b g : b <> 0 -> g <> 0 -> Jy_to_dBm (Num (dBm_to_Jy p (Num b) (Num g))) (Num b) (Num g) = Ok p.
Proof. intros B G. rewrite power_dBm, back_Jy by assumption. rewrite log_pow. cbn [bind]. f_equal. field. Qed.
Lemma round_Jy s b g p : Jy_to_dBm (Num s) (Num b) (Num g) = Ok p -> dBm_to_Jy p (Num b) (Num g) = s.
Proof.
  rewrite power_dBm. set (A := calculate_effective_area (Num g)) in *. destruct (log10 (received s b A * 1000)) as [y|e] eqn:E; [|discriminate]. cbn [bind]. intro H. injection H as <-.
  assert (P : 0 < received s b A * 1000) by (unfold log10 in E; destruct (Rlt_dec 0 (received s b A * 1000)); [assumption|discriminate]).
  assert (NZ : b <> 0 /\ A <> 0). { split; intro Z0; unfold received in P; rewrite Z0 in P; rewrite ?Rmult_0_r, ?Rmult_0_l in P; lra. } destruct NZ as [B NA].
  apply pow_log in E. unfold dBm_to_Jy. fold A. replace (10 * y / 10) with y by field. rewrite E. unfold received. rewrite <- Jy_eq. pose proof Jy_pos. cbn [make_quantity]. field. repeat split; try assumption; lra.
Qed.
