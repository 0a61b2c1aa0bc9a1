(** Rounding to double precision is what S_Bar assumes of it, with a relative error of at most 2^-53. *)
From Coq Require Import List ZArith Bool QArith Qround Qabs Qpower Lia Lqa Setoid.
From Verif Require Import M_Bar S_Bar P_SdfBack M_Flt.
Open Scope Q_scope.

Lemma two_pos : forall k, 0 < 2 ^ k. Proof. intro k. apply Qpower_0_lt. reflexivity. Qed.
Lemma two_plus : forall a b, 2 ^ (a + b) == 2 ^ a * 2 ^ b. Proof. intros. apply Qpower_plus. discriminate. Qed.
Lemma two_Z : forall k, (0 <= k)%Z -> inject_Z (2 ^ k) == 2 ^ k. Proof. intros k H. apply (Zpower_Qpower 2 k H). Qed.
Lemma two_inv : forall k, 2 ^ k * 2 ^ (- k) == 1.
Proof. intro k. rewrite <- two_plus. replace (k + - k)%Z with 0%Z by lia. reflexivity. Qed.
Lemma two_mono : forall a b, (a <= b)%Z -> 2 ^ a <= 2 ^ b.
Proof. intros. apply Qpower_le_compat_l; auto. discriminate. Qed.
Lemma two_lt_inv : forall a b, 2 ^ a < 2 ^ b -> (a < b)%Z.
Proof. intros a b H. apply (Qpower_lt_compat_l_inv 2 a b H). reflexivity. Qed.

Lemma Qabs_frac : forall x, Qabs x == inject_Z (Z.abs (Qnum x)) / inject_Z (Zpos (Qden x)).
Proof. intros [n d]. cbn [Qabs Qnum Qden]. rewrite Qmake_Qdiv. reflexivity. Qed.
Lemma frac_ge : forall n d e, (0 < d)%Z -> (0 <= n)%Z ->
  (2 ^ e <= inject_Z n / inject_Z d <-> (if 0 <=? e then d * 2 ^ e <= n else d <= n * 2 ^ (- e))%Z).
Proof.
  intros n d e D N. assert (D' : 0 < inject_Z d) by (rewrite (Zlt_Qlt 0 d) in D; exact D).
  assert (E : 2 ^ e <= inject_Z n / inject_Z d <-> inject_Z d * 2 ^ e <= inject_Z n).
  { split; intro H.
    - apply (Qmult_le_l _ _ (inject_Z d)) in H; auto. rewrite Qmult_div_r in H by lra. exact H.
    - apply Qle_shift_div_l; auto. rewrite Qmult_comm. exact H. }
  rewrite E. destruct (Z.leb_spec 0 e) as [L|L].
  - rewrite <- two_Z by auto. rewrite <- inject_Z_mult, <- Zle_Qle. reflexivity.
  - pose proof (two_inv e) as I. pose proof (two_pos e). pose proof (two_pos (- e)). rewrite (Zle_Qle d), inject_Z_mult, two_Z by lia. split; intro G.
    + apply (Qmult_le_r _ _ (2 ^ (- e))) in G; auto. rewrite <- Qmult_assoc, I in G. lra.
    + apply (Qmult_le_r _ _ (2 ^ e)) in G; auto. rewrite <- Qmult_assoc, (Qmult_comm (2 ^ (- e))), I in G. lra.
Qed.
Lemma qlog2_spec : forall x, ~ x == 0 -> 2 ^ qlog2 x <= Qabs x /\ Qabs x < 2 ^ (qlog2 x + 1).
Proof.
  intros x H. assert (N : (0 < Z.abs (Qnum x))%Z). { destruct x as [n d]. cbn [Qnum]. destruct (Z.eq_dec n 0); [|lia]. subst. exfalso. apply H. reflexivity. }
  rewrite !Qabs_frac. unfold qlog2. set (n := Z.abs (Qnum x)) in *. set (d := Zpos (Qden x)). assert (D : (0 < d)%Z) by (unfold d; lia).
  pose proof (Z.log2_spec n N) as [A B]. pose proof (Z.log2_spec d D) as [A' B']. pose proof (Z.log2_nonneg n) as ln. pose proof (Z.log2_nonneg d) as ld.
  set (a := Z.log2 n) in *. set (b := Z.log2 d) in *. rewrite Z.pow_succ_r in B, B' by auto. cbv zeta.
  assert (lt_iff : forall e, inject_Z n / inject_Z d < 2 ^ e <-> ~ (if 0 <=? e then d * 2 ^ e <= n else d <= n * 2 ^ (- e))%Z).
  { intro e. rewrite <- frac_ge by lia. split; [intros P Q; lra|]. intro P. apply Qnot_le_lt. exact P. }
  assert (G : (if 0 <=? a - b - 1 then d * 2 ^ (a - b - 1) <= n else d <= n * 2 ^ (- (a - b - 1)))%Z).
  { destruct (Z.leb_spec 0 (a - b - 1)).
    - assert (P : (2 ^ a = 2 * 2 ^ b * 2 ^ (a - b - 1))%Z). { change 2%Z with (2 ^ 1)%Z at 2. rewrite <- !Z.pow_add_r by lia. f_equal. lia. }
      pose proof (Z.pow_pos_nonneg 2 (a - b - 1) ltac:(lia) ltac:(lia)). nia.
    - assert (P : (2 * 2 ^ b = 2 ^ a * 2 ^ (- (a - b - 1)))%Z). { change 2%Z with (2 ^ 1)%Z at 1. rewrite <- !Z.pow_add_r by lia. f_equal. lia. }
      pose proof (Z.pow_pos_nonneg 2 (- (a - b - 1)) ltac:(lia) ltac:(lia)). nia. }
  assert (K : ~ (if 0 <=? a - b + 1 then d * 2 ^ (a - b + 1) <= n else d <= n * 2 ^ (- (a - b + 1)))%Z).
  { destruct (Z.leb_spec 0 (a - b + 1)).
    - assert (P : (2 * 2 ^ a = 2 ^ b * 2 ^ (a - b + 1))%Z). { change 2%Z with (2 ^ 1)%Z at 1. rewrite <- !Z.pow_add_r by lia. f_equal. lia. }
      pose proof (Z.pow_pos_nonneg 2 (a - b + 1) ltac:(lia) ltac:(lia)). nia.
    - assert (P : (2 ^ b = 2 * 2 ^ a * 2 ^ (- (a - b + 1)))%Z). { change 2%Z with (2 ^ 1)%Z at 2. rewrite <- !Z.pow_add_r by lia. f_equal. lia. }
      pose proof (Z.pow_pos_nonneg 2 (- (a - b + 1)) ltac:(lia) ltac:(lia)). nia. }
  destruct (if (0 <=? a - b)%Z then (n <? d * 2 ^ (a - b))%Z else (n * 2 ^ (- (a - b)) <? d)%Z) eqn:C.
  - split; [apply frac_ge; auto; lia|]. replace (a - b - 1 + 1)%Z with (a - b)%Z by lia. apply lt_iff. destruct (Z.leb_spec 0 (a - b)); apply Z.ltb_lt in C; lia.
  - split; [|apply lt_iff; exact K]. apply frac_ge; auto; try lia. destruct (Z.leb_spec 0 (a - b)); apply Z.ltb_ge in C; lia.
Qed.
Lemma qlog2_unique : forall x e, 2 ^ e <= Qabs x -> Qabs x < 2 ^ (e + 1) -> qlog2 x = e.
Proof.
  intros x e A B. assert (N : ~ x == 0). { intro Z. rewrite Z in A. pose proof (two_pos e). change (Qabs 0) with 0 in A. lra. }
  destruct (qlog2_spec x N) as [C D]. assert (2 ^ e < 2 ^ (qlog2 x + 1)) as E1 by lra. assert (2 ^ qlog2 x < 2 ^ (e + 1)) as E2 by lra. apply two_lt_inv in E1, E2. lia.
Qed.
Lemma half_even_comp : forall x y, x == y -> half_even x = half_even y.
Proof. intros x y H. unfold half_even. rewrite (Qfloor_comp x y H). assert (E : (x - inject_Z (Qfloor y) ?= 1 # 2) = (y - inject_Z (Qfloor y) ?= 1 # 2)) by (rewrite H; reflexivity). rewrite E. reflexivity. Qed.
Lemma fl_zero : forall x, x == 0 -> fl x = 0.
Proof. intros [n d] H. unfold fl. cbn [Qnum]. unfold Qeq in H. cbn in H. destruct (Z.eqb_spec n 0); auto. lia. Qed.
Lemma fl_nz : forall x, ~ x == 0 -> fl x == inject_Z (half_even (x * 2 ^ (52 - qlog2 x))) * 2 ^ (- (52 - qlog2 x)).
Proof.
  intros [n d] H. unfold fl. cbn [Qnum]. destruct (Z.eqb_spec n 0) as [E|E]; [exfalso; apply H; subst; reflexivity|]. cbv zeta. apply Qred_correct.
Qed.
Lemma fl_comp : forall x y, x == y -> fl x == fl y.
Proof.
  intros x y H. destruct (Qeq_dec x 0) as [Z|Z]; [rewrite (fl_zero x Z), (fl_zero y); [reflexivity|rewrite <- H; auto]|].
  assert (Z' : ~ y == 0) by (rewrite <- H; auto). rewrite (fl_nz x Z), (fl_nz y Z'). destruct (qlog2_spec x Z) as [A B]. set (e := qlog2 x) in *. clearbody e. rewrite H in A, B.
  rewrite (qlog2_unique y e A B). rewrite (half_even_comp (x * 2 ^ (52 - e)) (y * 2 ^ (52 - e))); [reflexivity|]. rewrite H. reflexivity.
Qed.
Global Instance fl_Proper : Proper (Qeq ==> Qeq) fl := fl_comp.

(** *** The error *)
Lemma fl_err : forall x, Qabs (fl x - x) <= Qabs x * (1 # 2 ^ 53).
Proof.
  intro x. destruct (Qeq_dec x 0) as [Z|Z]. { rewrite (fl_zero x Z), Z. discriminate. }
  rewrite (fl_nz x Z). destruct (qlog2_spec x Z) as [A _]. set (e := qlog2 x) in *. pose proof (half_even_near (x * 2 ^ (52 - e))) as N. set (h := half_even _) in *.
  pose proof (two_inv (52 - e)) as I. pose proof (two_pos (- (52 - e))) as P.
  assert (E : inject_Z h * 2 ^ (- (52 - e)) - x == (inject_Z h - x * 2 ^ (52 - e)) * 2 ^ (- (52 - e))). { rewrite <- (Qmult_1_r x) at 1. rewrite <- I. ring. }
  rewrite E, Qabs_Qmult. rewrite (Qabs_pos (2 ^ _)) by lra.
  assert (F : 2 ^ (- (52 - e)) == 2 ^ e * (1 # 2 ^ 52)). { replace (- (52 - e))%Z with (e + -52)%Z by lia. rewrite two_plus. reflexivity. }
  rewrite F. set (a := Qabs (inject_Z h - x * 2 ^ (52 - e))) in *. pose proof (two_pos e). apply Qle_trans with ((1 # 2) * (2 ^ e * (1 # 2 ^ 52))).
  - apply Qmult_le_compat_r; auto. lra.
  - setoid_replace ((1 # 2) * (2 ^ e * (1 # 2 ^ 52))) with (2 ^ e * (1 # 2 ^ 53)) by (rewrite Qmult_comm, <- Qmult_assoc; reflexivity). apply Qmult_le_compat_r; auto. discriminate.
Qed.

(** *** The doubles *)
(** Numbers with 53 significant bits. *)
Definition F53 (x : Q) : Prop := exists m e, (Z.abs m <= 2 ^ 53)%Z /\ x == inject_Z m * 2 ^ e.
Lemma nearest_int : forall q z, Qabs (inject_Z (half_even q) - q) <= Qabs (inject_Z z - q).
Proof.
  intros q z. destruct (Z.eq_dec z (half_even q)) as [-> | N]; [apply Qle_refl|]. pose proof (half_even_near q) as H. set (h := half_even q) in *.
  assert (D : 1 <= Qabs (inject_Z z - inject_Z h)).
  { unfold Qminus. rewrite <- inject_Z_opp, <- inject_Z_plus. change (Qabs (inject_Z (z + - h))) with (inject_Z (Z.abs (z + - h))). change 1 with (inject_Z 1). rewrite <- Zle_Qle. lia. }
  pose proof (Qabs_triangle (inject_Z z - q) (q - inject_Z h)) as T. assert (E : inject_Z z - q + (q - inject_Z h) == inject_Z z - inject_Z h) by ring. rewrite E in T.
  rewrite (Qabs_Qminus q) in T. lra.
Qed.
Lemma half_even_le : forall q z, q <= inject_Z z -> (half_even q <= z)%Z.
Proof.
  intros q z H. destruct (Z_le_gt_dec (half_even q) z) as [L|G]; auto. exfalso. pose proof (nearest_int q z) as N.
  assert (G' : inject_Z z + 1 <= inject_Z (half_even q)). { change 1 with (inject_Z 1). rewrite <- inject_Z_plus, <- Zle_Qle. lia. }
  rewrite (Qabs_pos (inject_Z (half_even q) - q)), (Qabs_pos (inject_Z z - q)) in N by lra. lra.
Qed.
Lemma half_even_ge : forall q z, inject_Z z <= q -> (z <= half_even q)%Z.
Proof.
  intros q z H. destruct (Z_le_gt_dec z (half_even q)) as [L|G]; auto. exfalso. pose proof (nearest_int q z) as N.
  assert (G' : inject_Z (half_even q) + 1 <= inject_Z z). { change 1 with (inject_Z 1). rewrite <- inject_Z_plus, <- Zle_Qle. lia. }
  rewrite (Qabs_neg (inject_Z (half_even q) - q)), (Qabs_neg (inject_Z z - q)) in N by lra. lra.
Qed.
Lemma fl_in : forall x, F53 (fl x).
Proof.
  intro x. destruct (Qeq_dec x 0) as [Z|Z]. { rewrite (fl_zero x Z). exists 0%Z, 0%Z. split; [cbn; lia|reflexivity]. }
  pose proof (fl_nz x Z) as E. destruct (qlog2_spec x Z) as [_ B]. set (e := qlog2 x) in *. exists (half_even (x * 2 ^ (52 - e))), (- (52 - e))%Z. split; auto.
  assert (Y : Qabs (x * 2 ^ (52 - e)) <= inject_Z (2 ^ 53)).
  { rewrite Qabs_Qmult. pose proof (two_pos (52 - e)) as P. rewrite (Qabs_pos (2 ^ _)) by lra. rewrite two_Z by lia. replace 53%Z with (e + 1 + (52 - e))%Z by lia. rewrite two_plus. apply Qmult_le_compat_r; lra. }
  apply Qabs_Qle_condition in Y. destruct Y as [Y1 Y2]. apply half_even_le in Y2. rewrite <- inject_Z_opp in Y1. apply half_even_ge in Y1. lia.
Qed.
Lemma scaled_near : forall x k m, Qabs (inject_Z (half_even (x * 2 ^ k)) * 2 ^ (- k) - x) <= Qabs (inject_Z m * 2 ^ (- k) - x).
Proof.
  intros x k m. pose proof (two_inv k) as I. pose proof (two_pos (- k)) as P.
  assert (E : forall z, inject_Z z * 2 ^ (- k) - x == (inject_Z z - x * 2 ^ k) * 2 ^ (- k)). { intro z. rewrite <- (Qmult_1_r x) at 1. rewrite <- I. ring. }
  rewrite !E, !Qabs_Qmult. apply Qmult_le_compat_r; [apply nearest_int|]. apply Qabs_nonneg.
Qed.
Lemma fl_near : forall x y, F53 y -> Qabs (fl x - x) <= Qabs (y - x).
Proof.
  intros x y (m & e & M & Y). destruct (Qeq_dec x 0) as [Z|Z]. { rewrite (fl_zero x Z), Z. apply Qabs_nonneg. }
  rewrite (fl_nz x Z). destruct (qlog2_spec x Z) as [A _]. set (k := (52 - qlog2 x)%Z). destruct (Z_le_gt_dec (- k) e) as [L|G].
  - assert (E : y == inject_Z (m * 2 ^ (e - - k)) * 2 ^ (- k)). { rewrite Y, inject_Z_mult, two_Z, <- Qmult_assoc, <- two_plus by lia. replace (e - - k + - k)%Z with e by lia. reflexivity. }
    rewrite E. apply scaled_near.
  - (* a finer number is below the power of two that x has reached *)
    assert (B : Qabs y <= 2 ^ qlog2 x).
    { rewrite Y, Qabs_Qmult. pose proof (two_pos e) as P. rewrite (Qabs_pos (2 ^ e)) by lra. apply Qle_trans with (inject_Z (2 ^ 53) * 2 ^ e).
      - apply Qmult_le_compat_r; [|lra]. change (Qabs (inject_Z m)) with (inject_Z (Z.abs m)). rewrite <- Zle_Qle. exact M.
      - rewrite two_Z, <- two_plus by lia. apply two_mono. lia. }
    assert (C : forall s, (s = 1 \/ s = -1)%Z -> inject_Z (s * 2 ^ 52) * 2 ^ (- k) == inject_Z s * 2 ^ qlog2 x).
    { intros s _. rewrite inject_Z_mult, (two_Z 52), <- Qmult_assoc, <- two_plus by lia. replace (52 + - k)%Z with (qlog2 x) by lia. reflexivity. }
    set (p := 2 ^ qlog2 x) in *. apply Qabs_Qle_condition in B. destruct (Qlt_le_dec x 0) as [S|S].
    + rewrite (Qabs_neg x) in A by lra. apply Qle_trans with (1 := scaled_near x k (-1 * 2 ^ 52)). rewrite C by auto. change (inject_Z (-1)) with (-(1)).
      rewrite (Qabs_pos (y - x)), (Qabs_pos (- (1) * p - x)) by lra. lra.
    + rewrite (Qabs_pos x) in A by lra. apply Qle_trans with (1 := scaled_near x k (1 * 2 ^ 52)). rewrite C by auto. change (inject_Z 1) with 1.
      rewrite (Qabs_neg (y - x)), (Qabs_neg (1 * p - x)) by lra. lra.
Qed.
Lemma fl_exact : forall x, F53 x -> fl x == x.
Proof. intros x H. pose proof (fl_near x x H) as N. assert (E : x - x == 0) by ring. rewrite E in N. change (Qabs 0) with 0 in N. apply Qabs_Qle_condition in N. lra. Qed.
Lemma fl_mono : forall x y, x <= y -> fl x <= fl y.
Proof.
  intros x y H. destruct (Qlt_le_dec (fl y) (fl x)) as [C|C]; auto. exfalso. pose proof (fl_near x (fl y) (fl_in y)) as A. pose proof (fl_near y (fl x) (fl_in x)) as B.
  assert (E : x == y).
  { revert A B. apply (Qabs_case (fl x - x)); intro; apply (Qabs_case (fl y - x)); intro; apply (Qabs_case (fl y - y)); intro; apply (Qabs_case (fl x - y)); intros; lra. }
  rewrite E in C. lra.
Qed.
Lemma F53_int : forall z, (Z.abs z <= 2 ^ 53)%Z -> F53 (inject_Z z).
Proof. intros z H. exists z, 0%Z. split; auto. change (2 ^ 0) with 1. ring. Qed.
Lemma fl_int : forall z, (Z.abs z <= 2 ^ 53)%Z -> fl (inject_Z z) == inject_Z z.
Proof. intros z H. apply fl_exact, F53_int. auto. Qed.
Lemma F53_frac : forall x, F53 x -> 0 <= x -> F53 (x - inject_Z (Qfloor x)).
Proof.
  intros x (m & e & M & X) P. pose proof (two_pos e) as T. destruct (Z_le_gt_dec 0 e) as [L|G].
  - exists 0%Z, 0%Z. split; [cbn; lia|]. assert (E : x == inject_Z (m * 2 ^ e)) by (rewrite X, inject_Z_mult, two_Z by lia; reflexivity). rewrite (Qfloor_comp _ _ E), Qfloor_Z, E. ring.
  - assert (M0 : (0 <= m)%Z). { destruct (Z_le_gt_dec 0 m) as [|N]; auto. exfalso. assert (inject_Z m < 0). { change 0 with (inject_Z 0). rewrite <- Zlt_Qlt. lia. } nra. }
    assert (D : inject_Z (2 ^ (- e)) == / 2 ^ e). { rewrite two_Z by lia. rewrite Qpower_opp. reflexivity. }
    assert (F : Qfloor x = (m / 2 ^ (- e))%Z). { rewrite Zdiv_Qdiv. apply Qfloor_comp. rewrite X, D. field. lra. }
    exists (m mod 2 ^ (- e))%Z, e. rewrite F. pose proof (Z.pow_pos_nonneg 2 (- e) ltac:(lia) ltac:(lia)). pose proof (Z.mod_pos_bound m (2 ^ (- e)) ltac:(lia)). pose proof (Z.mod_le m (2 ^ (- e)) ltac:(lia) ltac:(lia)).
    split; [lia|]. rewrite X. rewrite Z.mod_eq by lia. unfold Z.sub. rewrite inject_Z_plus, inject_Z_opp, inject_Z_mult, D. field. lra.
Qed.
Lemma F53_gap : forall x, F53 x -> x < 1 -> x <= 1 - (1 # 2 ^ 53).
Proof.
  intros x (m & e & M & X) L. destruct (Z_le_gt_dec 0 e) as [P|G].
  - assert (E : x == inject_Z (m * 2 ^ e)) by (rewrite X, inject_Z_mult, two_Z by lia; reflexivity). rewrite E in *. change 1 with (inject_Z 1) in L. rewrite <- Zlt_Qlt in L.
    apply Qle_trans with (inject_Z 0); [|discriminate]. rewrite <- Zle_Qle. lia.
  - destruct (Z_le_gt_dec (-53) e) as [K|K].
    + assert (Q : (m < 2 ^ (- e))%Z). { rewrite Zlt_Qlt, two_Z by lia. pose proof (two_inv e) as I. pose proof (two_pos e). pose proof (two_pos (- e)) as T. apply (Qmult_lt_r _ _ (2 ^ e)); auto. rewrite (Qmult_comm (2 ^ (- e))), I, <- X. exact L. }
      assert (R : inject_Z m <= 2 ^ (- e) - 1). { rewrite <- two_Z by lia. change 1 with (inject_Z 1). unfold Qminus. rewrite <- inject_Z_opp, <- inject_Z_plus, <- Zle_Qle. lia. }
      pose proof (two_inv e) as I. pose proof (two_pos e) as T. pose proof (two_mono (-53) e K) as U. rewrite X. apply Qle_trans with ((2 ^ (- e) - 1) * 2 ^ e); [apply Qmult_le_compat_r; lra|].
      setoid_replace ((2 ^ (- e) - 1) * 2 ^ e) with (2 ^ e * 2 ^ (- e) - 2 ^ e) by ring. rewrite I. change (2 ^ (-53)) with (1 # 2 ^ 53) in U. lra.
    + rewrite X. apply Qle_trans with (2 ^ 53 * 2 ^ e).
      * apply Qmult_le_compat_r; [|pose proof (two_pos e); lra]. rewrite <- two_Z, <- Zle_Qle by lia. lia.
      * rewrite <- two_plus. apply Qle_trans with (2 ^ (-1)); [apply two_mono; lia|discriminate].
Qed.
Lemma fl_doubles : doubles F53 fl.
Proof.
  constructor; auto using fl_mono, fl_in, fl_near, F53_frac, F53_gap.
  - intros z H. apply F53_int. lia.
  - exists (5 * 2 ^ 50 - 1)%Z, (-50)%Z. split; [cbn; lia|reflexivity].
Qed.
