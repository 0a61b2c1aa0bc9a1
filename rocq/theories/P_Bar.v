(** Lemmas about progress bars. *)
From Coq Require Import List ZArith Bool Lia QArith Qround Qabs Lqa.
From Verif Require Import M_Str M_Bar S_Bar P_Str.
Import ListNotations.
Open Scope Z_scope.

Lemma rep_len : forall c n, 0 <= n -> Z.of_nat (length (rep c n)) = n.
Proof. intros c n H. unfold rep. rewrite repeat_length. lia. Qed.
Lemma trunc_le : forall q z, (q <= inject_Z z)%Q -> trunc q <= z.
Proof. intros q z H. unfold trunc. apply Qfloor_resp_le in H. rewrite Qfloor_Z in H. auto. Qed.
Lemma trunc_ge : forall q z, (inject_Z z <= q)%Q -> z <= trunc q.
Proof. intros q z H. unfold trunc. apply Qfloor_resp_le in H. rewrite Qfloor_Z in H. auto. Qed.
Lemma trunc_lt : forall q z, (q < inject_Z z)%Q -> trunc q < z.
Proof. intros q z H. unfold trunc. pose proof (Qfloor_le q). rewrite Zlt_Qlt. lra. Qed.
Lemma trunc_mono : forall p q, (p <= q)%Q -> trunc p <= trunc q.
Proof. intros. apply Qfloor_resp_le. auto. Qed.

Section Doubles.
  Context (F : Q -> Prop) (rnd : Q -> Q) (D : doubles F rnd).
  Lemma rnd_F : forall x, F x -> (rnd x == x)%Q.
  Proof.
    intros x H. pose proof (d_near _ _ D x x H) as N. assert (E : (x - x == 0)%Q) by ring. rewrite E in N. change (Qabs 0) with 0%Q in N.
    apply Qabs_Qle_condition in N. lra.
  Qed.
  Lemma rnd_int : forall z, 0 <= z <= 2 ^ 53 -> (rnd (inject_Z z) == inject_Z z)%Q.
  Proof. intros. apply rnd_F. apply (d_int _ _ D). auto. Qed.
  Lemma rnd_nonneg : forall x, (0 <= x)%Q -> (0 <= rnd x)%Q.
  Proof. intros x H. apply (d_mono _ _ D) in H. rewrite (rnd_int 0) in H by lia. exact H. Qed.
  Lemma rnd_le : forall x z, 0 <= z <= 2 ^ 53 -> (x <= inject_Z z)%Q -> (rnd x <= inject_Z z)%Q.
  Proof. intros x z Z H. apply (d_mono _ _ D) in H. rewrite (rnd_int z) in H by lia. exact H. Qed.
  Lemma rnd_eq : forall x y, (x == y)%Q -> (rnd x == rnd y)%Q.
  Proof. intros x y E. apply Qle_antisym; apply (d_mono _ _ D); rewrite E; apply Qle_refl. Qed.
  Lemma rnd_is : forall x z, 0 <= z <= 2 ^ 53 -> (x == inject_Z z)%Q -> (rnd x == inject_Z z)%Q.
  Proof. intros x z Z E. rewrite (rnd_eq _ _ E). apply rnd_int. auto. Qed.
  Lemma rnd_pos : forall m, 0 < m -> (1 <= rnd (inject_Z m))%Q.
  Proof. intros m M. assert (H : (inject_Z 1 <= inject_Z m)%Q) by (rewrite <- Zle_Qle; lia). apply (d_mono _ _ D) in H. rewrite (rnd_int 1) in H by lia. exact H. Qed.
  Lemma fraction_bounds : forall a m, 0 <= a <= m -> 0 < m -> (0 <= fraction rnd a m)%Q /\ (fraction rnd a m <= 1)%Q.
  Proof.
    intros a m A M. unfold fraction. pose proof (rnd_pos m M) as P. assert (A0 : (0 <= rnd (inject_Z a))%Q) by (apply rnd_nonneg; rewrite <- (Zle_Qle 0); lia).
    assert (A1 : (rnd (inject_Z a) <= rnd (inject_Z m))%Q) by (apply (d_mono _ _ D); rewrite <- Zle_Qle; lia).
    split.
    - apply rnd_nonneg. apply Qle_shift_div_l; lra.
    - apply (rnd_le _ 1); [lia|]. apply Qle_shift_div_r; [lra|]. change (inject_Z 1) with 1%Q. lra.
  Qed.
  Lemma fraction_mono : forall a b m, 0 <= a <= b -> 0 < m -> (fraction rnd a m <= fraction rnd b m)%Q.
  Proof.
    intros a b m A M. unfold fraction. apply (d_mono _ _ D). pose proof (rnd_pos m M) as P.
    assert (A1 : (rnd (inject_Z a) <= rnd (inject_Z b))%Q) by (apply (d_mono _ _ D); rewrite <- Zle_Qle; lia).
    unfold Qdiv. apply Qmult_le_compat_r; auto. apply Qinv_le_0_compat. lra.
  Qed.
  Lemma fraction_full : forall m, 0 < m -> (fraction rnd m m == 1)%Q.
  Proof.
    intros m M. unfold fraction. pose proof (rnd_pos m M) as P. assert (E : (rnd (inject_Z m) / rnd (inject_Z m) == inject_Z 1)%Q) by (change (inject_Z 1) with 1%Q; field; lra).
    rewrite (rnd_eq _ _ E). apply rnd_int. lia.
  Qed.
  Lemma marks_bounds : forall a m w, 0 <= a <= m -> 0 < m -> 0 <= w <= 2 ^ 53 -> (0 <= marks rnd a m w)%Q /\ (marks rnd a m w <= inject_Z w)%Q.
  Proof.
    intros a m w A M W. unfold marks. destruct (fraction_bounds a m A M) as [F0 F1]. assert (W0 : (0 <= inject_Z w)%Q) by (rewrite <- (Zle_Qle 0); lia). split.
    - apply rnd_nonneg. nra.
    - apply rnd_le; auto. nra.
  Qed.
  Lemma marks_mono : forall a b m w, 0 <= a <= b -> 0 < m -> 0 <= w -> (marks rnd a m w <= marks rnd b m w)%Q.
  Proof.
    intros a b m w A M W. unfold marks. apply (d_mono _ _ D). pose proof (fraction_mono a b m A M). assert (W0 : (0 <= inject_Z w)%Q) by (rewrite <- (Zle_Qle 0); lia). nra.
  Qed.
  (** The rotating mark. *)
  Definition turn (n : Q) : Z := trunc (rnd (rnd (n - inject_Z (trunc n)) * 5)%Q).
  Lemma frac_F : forall n, F n -> (0 <= n)%Q -> (rnd (n - inject_Z (trunc n)) == n - inject_Z (trunc n))%Q.
  Proof. intros n N P. apply rnd_F. apply (d_frac _ _ D); auto. Qed.
  Lemma five : (rnd (5 * (1 - (1 # 2 ^ 53))) < 5)%Q.
  Proof.
    pose proof (d_near _ _ D (5 * (1 - (1 # 2 ^ 53)))%Q _ (d_five _ _ D)) as N.
    assert (E : (Qabs (5 - (1 # 2 ^ 50) - 5 * (1 - (1 # 2 ^ 53))) == 3 # 2 ^ 53)%Q) by (vm_compute; reflexivity). rewrite E in N.
    apply Qabs_Qle_condition in N. destruct N as [_ N]. 
    assert (L : (5 * (1 - (1 # 2 ^ 53)) + (3 # 2 ^ 53) < 5)%Q) by (vm_compute; reflexivity). lra.
  Qed.
  Lemma turn_bounds : forall n, F n -> (0 <= n)%Q -> 0 <= turn n < 5.
  Proof.
    intros n N P. unfold turn. pose proof (frac_F n N P) as E. pose proof (Qfloor_le n) as L. pose proof (Qlt_floor n) as U. rewrite inject_Z_plus in U. change (inject_Z 1) with 1%Q in U. fold (trunc n) in L, U.
    assert (FF : F (n - inject_Z (trunc n))) by (apply (d_frac _ _ D); auto).
    assert (G : (n - inject_Z (trunc n) <= 1 - (1 # 2 ^ 53))%Q) by (apply (d_gap _ _ D); auto; lra).
    assert (P0 : (0 <= rnd (n - inject_Z (trunc n)))%Q) by (rewrite E; lra).
    split.
    - apply trunc_ge. change (inject_Z 0) with 0%Q. apply rnd_nonneg. lra.
    - apply trunc_lt. change (inject_Z 5) with 5%Q. pose proof five as V. eapply Qle_lt_trans; [|exact V]. apply (d_mono _ _ D). rewrite E. rewrite Qmult_comm. lra.
  Qed.
  Lemma turn_mono : forall n m, F n -> F m -> (0 <= n)%Q -> (n <= m)%Q -> trunc n = trunc m -> turn n <= turn m.
  Proof.
    intros n m N M P L E. unfold turn. apply trunc_mono. apply (d_mono _ _ D). rewrite (frac_F n N P), (frac_F m M) by lra. rewrite E. lra.
  Qed.
  Lemma marks_F : forall a m w, F (marks rnd a m w).
  Proof. intros. apply (d_in _ _ D). Qed.

  Lemma bar_shape : forall cap sym a m w, 0 <= a <= m -> 0 < m -> 0 <= w <= 2 ^ 53 ->
    let n := marks rnd a m w in
    0 <= trunc n <= w /\
    bar rnd cap sym a m w = inr (if trunc n <? w then rep sym (trunc n) ++ nth (Z.to_nat (turn n)) (rotations sym) 0 :: rep 32 (w - trunc n - 1) else rep sym w).
  Proof.
    intros cap sym a m w A M W. cbn zeta. destruct (marks_bounds a m w A M W) as [N0 N1]. pose proof (trunc_le _ _ N1) as T1. assert (T0 : 0 <= trunc (marks rnd a m w)) by (apply trunc_ge; exact N0).
    split; [lia|]. unfold bar. destruct (Z.eqb_spec m 0); [lia|].
    replace (if cap then Z.min (trunc (marks rnd a m w)) w else trunc (marks rnd a m w)) with (trunc (marks rnd a m w)) by (destruct cap; lia).
    destruct (Z.ltb_spec (trunc (marks rnd a m w)) w) as [L|L].
    - pose proof (turn_bounds _ (marks_F a m w) N0) as TB. fold (turn (marks rnd a m w)).
      assert (NE : nth_error (rotations sym) (Z.to_nat (turn (marks rnd a m w))) = Some (nth (Z.to_nat (turn (marks rnd a m w))) (rotations sym) 0)).
      { apply nth_error_nth'. cbn. lia. }
      rewrite NE. f_equal. f_equal. cbn [app]. f_equal. f_equal. lia.
    - f_equal. replace (trunc (marks rnd a m w)) with w by lia. replace (w - w) with 0 by lia. unfold rep at 2. cbn. apply app_nil_r.
  Qed.
End Doubles.

Lemma pad_len : forall w s, Z.of_nat (length s) <= w -> Z.of_nat (length (pad w s)) = w.
Proof. intros w s H. unfold pad. rewrite app_length, Nat2Z.inj_add, rep_len; lia. Qed.
Lemma dec_len : forall n k, 0 <= n < 10 ^ Z.of_nat k -> (0 < k)%nat -> Z.of_nat (length (dec n)) <= Z.of_nat k.
Proof.
  assert (G : forall fuel n acc k, 0 <= n < 10 ^ Z.of_nat k -> (0 < k)%nat -> (length (digits fuel n acc) <= k + length acc)%nat).
  { induction fuel as [|f IH]; intros n acc k H K; cbn [digits]; [lia|]. destruct (Z.ltb_spec n 10); [cbn; lia|].
    destruct k as [|[|k]]; [lia|cbn in H; lia|]. specialize (IH (n / 10) ((48 + n mod 10) :: acc) (S k)). cbn [length] in IH.
    rewrite Nat2Z.inj_succ, Z.pow_succ_r in H by lia. assert (0 <= n / 10 < 10 ^ Z.of_nat (S k)) by (split; [apply Z.div_pos; lia|apply Z.div_lt_upper_bound; lia]). lia. }
  intros n k H K. unfold dec. destruct (Z.ltb_spec n 0); [lia|]. unfold dec_nat. specialize (G (S (Z.to_nat (Z.log2 n))) n [] k H K). cbn [length] in G. lia.
Qed.
Lemma dec_len_pos : forall n, 1 <= Z.of_nat (length (dec n)).
Proof. intro n. pose proof (dec_ne n). destruct (dec n); [congruence|]. cbn [length]. lia. Qed.
Lemma half_even_bounds : forall q z, (0 <= q)%Q -> (q <= inject_Z z)%Q -> 0 <= half_even q <= z.
Proof.
  intros q z P L. unfold half_even. assert (F0 : 0 <= Qfloor q) by (apply (trunc_ge q 0); exact P). assert (F1 : Qfloor q <= z) by (apply (trunc_le q z); exact L).
  assert (X : (0 < q - inject_Z (Qfloor q))%Q -> Qfloor q < z).
  { intro X. rewrite Zlt_Qlt. lra. }
  destruct (Qcompare_spec (q - inject_Z (Qfloor q)) (1 # 2)) as [E|E|E]; [destruct (Z.even _)| |]; try lia; assert (Qfloor q < z) by (apply X; lra); lia.
Qed.
Lemma fmt_len : forall q, (0 <= q)%Q -> (10 * q <= inject_Z 9999)%Q -> Z.of_nat (length (fmt_5_1f q)) = 5.
Proof.
  intros q P L. unfold fmt_5_1f. apply pad_len. destruct (half_even_bounds (10 * q) 9999) as [H0 H1]; [lra|exact L|]. set (t := half_even (10 * q)) in *. cbv beta zeta.
  rewrite app_length. cbn [length]. assert (D0 : 0 <= t / 10) by (apply Z.div_pos; lia). assert (D1 : t / 10 < 1000) by (apply Z.div_lt_upper_bound; lia).
  pose proof (Z.mod_pos_bound t 10 ltac:(lia)). pose proof (dec_len (t / 10) 3 ltac:(cbn; lia) ltac:(lia)). pose proof (dec_len (t mod 10) 1 ltac:(cbn; lia) ltac:(lia)). lia.
Qed.
Lemma len_app : forall (a b : str), Z.of_nat (length (a ++ b)) = Z.of_nat (length a) + Z.of_nat (length b).
Proof. intros. rewrite app_length. lia. Qed.
Lemma len_cons : forall c (b : str), Z.of_nat (length (c :: b)) = 1 + Z.of_nat (length b).
Proof. intros. cbn [length]. lia. Qed.
