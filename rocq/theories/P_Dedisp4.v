(** Dispersion delays in double precision. *)
From Coq Require Import List ZArith QArith Qround Qabs Qpower Lqa Bool Lia.
From Verif Require Import LibList M_Bar M_Flt M_Dedisp S_Bar S_Dedisp P_Flt P_Astro.
Import ListNotations.
Open Scope Q_scope.

Lemma half_even_opp : forall q, half_even (- q) = (- half_even q)%Z.
Proof.
  intro q. unfold half_even. pose proof (Qfloor_le q) as F1. pose proof (Qlt_floor q) as F2. set (f := Qfloor q) in *. rewrite inject_Z_plus in F2. change (inject_Z 1) with 1 in F2.
  destruct (Qeq_dec q (inject_Z f)) as [E|E].
  - assert (EF : Qfloor (- q) = (- f)%Z).
    { rewrite (Qfloor_comp (- q) (inject_Z (- f))) by (rewrite inject_Z_opp, E; reflexivity). apply Qfloor_Z. }
    rewrite EF. rewrite inject_Z_opp. clearbody f. set (g := inject_Z f) in *. clearbody g.
    assert (C1 : (- q - - g ?= 1 # 2) = Lt) by (apply (proj1 (Qlt_alt _ _)); lra).
    assert (C2 : (q - g ?= 1 # 2) = Lt) by (apply (proj1 (Qlt_alt _ _)); lra).
    rewrite C1, C2. reflexivity.
  - assert (F3 : inject_Z f < q) by (apply Qle_lteq in F1; destruct F1; auto; exfalso; apply E; symmetry; auto).
    assert (EF : Qfloor (- q) = (- f - 1)%Z).
    { assert (B1 : (Qfloor (- q) <= - f - 1)%Z).
      { assert (Qfloor (- q) < - f)%Z; [|lia]. rewrite Zlt_Qlt, inject_Z_opp. pose proof (Qfloor_le (- q)). lra. }
      assert (B2 : (- f - 1 <= Qfloor (- q))%Z).
      { assert (- f - 2 < Qfloor (- q))%Z; [|lia]. rewrite Zlt_Qlt. pose proof (Qlt_floor (- q)) as G. rewrite inject_Z_plus in G. change (inject_Z 1) with 1 in G.
        replace (- f - 2)%Z with (- f + (-2))%Z by lia. rewrite inject_Z_plus, inject_Z_opp. change (inject_Z (-2)) with (-(2)). lra. }
      lia. }
    rewrite EF. replace (- f - 1)%Z with (- f + -1)%Z by lia.
    assert (D : - q - inject_Z (- f + -1) == 1 - (q - inject_Z f)).
    { rewrite inject_Z_plus, inject_Z_opp. change (inject_Z (-1)) with (-(1)). ring. }
    destruct (Qcompare_spec (q - inject_Z f) (1 # 2)) as [C|C|C].
    + assert (C1 : (- q - inject_Z (- f + -1) ?= 1 # 2) = Eq) by (apply (proj1 (Qeq_alt _ _)); rewrite D; lra).
      rewrite C1. rewrite Z.even_add, Z.even_opp. change (Z.even (-1)) with false. destruct (Z.even f); simpl; lia.
    + assert (C1 : (- q - inject_Z (- f + -1) ?= 1 # 2) = Gt) by (apply (proj1 (Qgt_alt _ _)); rewrite D; lra). rewrite C1. lia.
    + assert (C1 : (- q - inject_Z (- f + -1) ?= 1 # 2) = Lt) by (apply (proj1 (Qlt_alt _ _)); rewrite D; lra). rewrite C1. lia.
Qed.

Lemma qlog2_opp : forall x, qlog2 (- x) = qlog2 x.
Proof. intros [n d]. unfold qlog2. simpl Qnum. simpl Qden. rewrite Z.abs_opp. reflexivity. Qed.

Lemma fl_opp : forall x, fl (- x) == - fl x.
Proof.
  intro x. destruct (Qeq_dec x 0) as [E|E].
  - rewrite (fl_zero x E), fl_zero by (rewrite E; reflexivity). reflexivity.
  - rewrite (fl_nz x E), fl_nz by (intro E'; apply E; lra). rewrite qlog2_opp.
    rewrite (half_even_comp (- x * 2 ^ (52 - qlog2 x)) (- (x * 2 ^ (52 - qlog2 x)))) by ring. rewrite half_even_opp, inject_Z_opp. ring.
Qed.

Lemma shift_opp : forall tInt t t', t' == - t -> shift tInt t' = (- shift tInt t)%Z.
Proof.
  intros tInt t t' E. unfold shift. rewrite <- half_even_opp. apply half_even_comp. rewrite <- fl_opp. apply fl_comp. rewrite E. unfold Qdiv. ring.
Qed.
Lemma delay_opp : forall f l dm x, fl (fl (- dm * D) * fl (inv2 x - inv2 (fmax f l))) == - fl (fl (dm * D) * fl (inv2 x - inv2 (fmax f l))).
Proof.
  intros. rewrite <- fl_opp. apply fl_comp. rewrite (fl_comp (- dm * D) (- (dm * D))) by ring. rewrite fl_opp. ring.
Qed.

(** ** Order *)
Lemma fl_nonneg : forall x, 0 <= x -> 0 <= fl x.
Proof. intros x H. pose proof (fl_mono 0 x H) as M. rewrite (fl_zero 0) in M by reflexivity. auto. Qed.
Lemma D_pos : 0 < D. Proof. reflexivity. Qed.
Lemma inv2_nonneg : forall f, 0 <= inv2 f.
Proof. intro f. unfold inv2. apply fl_nonneg. nra. Qed.
Lemma inv_mono : forall f g, 0 < f -> f <= g -> 1000000 / g <= 1000000 / f.
Proof.
  intros f g Hf Hg. apply Qle_shift_div_l; auto. assert (E : 1000000 / g * f == 1000000 * (f / g)) by (unfold Qdiv; ring).
  assert (f / g <= 1) by (apply Qle_shift_div_r; lra). rewrite E. set (y := f / g) in *. clearbody y. lra.
Qed.
Lemma inv2_mono : forall f g, 0 < f -> f <= g -> inv2 g <= inv2 f.
Proof.
  intros f g Hf Hg. unfold inv2. apply fl_mono.
  assert (L : fl (1000000 / g) <= fl (1000000 / f)).
  { apply fl_mono. apply inv_mono; auto. }
  assert (0 <= fl (1000000 / g)). { apply fl_nonneg. apply Qle_shift_div_l; lra. }
  nra.
Qed.
Lemma fmax_spec : forall l f, In (fmax f l) (f :: l) /\ (forall x, In x (f :: l) -> x <= fmax f l).
Proof.
  induction l as [|y l IH]; intro f; unfold fmax in *; cbn [fold_left].
  - split; [left; auto|]. intros x [-> | []]. apply Qle_refl.
  - destruct (IH (if Qle_bool y f then f else y)) as [I1 I2]. split.
    + destruct I1 as [E|I1]; [|right; right; auto]. rewrite <- E. destruct (Qle_bool y f); [left|right; left]; auto.
    + assert (M : (if Qle_bool y f then f else y) <= fold_left (fun m x => if Qle_bool x m then m else x) l (if Qle_bool y f then f else y)) by (apply I2; left; auto).
      intros x [-> | [-> | I]].
      * destruct (Qle_bool y x) eqn:E; auto. assert (~ y <= x) by (rewrite <- Qle_bool_iff, E; discriminate). lra.
      * destruct (Qle_bool x f) eqn:E; auto. apply Qle_bool_iff in E. lra.
      * apply I2. right. auto.
Qed.

(** ** Accuracy *)
Definition u : Q := 1 # 9007199254740992.
Definition rel (a b e : Q) : Prop := b * (1 - e) <= a /\ a <= b * (1 + e).
Lemma rel_fl : forall a b e, rel a b e -> 0 <= b -> 0 <= e -> e <= 1 -> rel (fl a) b (e + u + e * u).
Proof.
  intros a b e [R1 R2] B E1 E2. assert (A0 : 0 <= a) by nra. pose proof (fl_err a) as F. rewrite (Qabs_pos a A0) in F.
  change (1 # 2 ^ 53) with u in F. apply Qabs_Qle_condition in F. destruct F as [F1 F2]. assert (U : u == 1 # 9007199254740992) by reflexivity.
  assert (0 < u) by reflexivity. assert (u <= 1) by discriminate. split; nra.
Qed.
Lemma rel_mul : forall a b e a' b' e', rel a b e -> rel a' b' e' -> 0 <= b -> 0 <= b' -> 0 <= e -> e <= 1 -> 0 <= e' -> e' <= 1 -> rel (a * a') (b * b') (e + e' + e * e').
Proof.
  intros a b e a' b' e' [R1 R2] [S1 S2] B B' E1 E2 E3 E4. assert (0 <= b * (1 - e)) by nra. assert (0 <= b' * (1 - e')) by nra.
  assert (0 <= b * b') by nra. assert (0 <= e * e') by nra.
  split.
  - apply Qle_trans with (b * (1 - e) * (b' * (1 - e'))); [|apply Qmult_le_compat_nonneg; auto].
    setoid_replace (b * (1 - e) * (b' * (1 - e'))) with (b * b' * (1 - (e + e' - e * e'))) by ring.
    rewrite !(Qmult_comm (b * b')). apply Qmult_le_compat_r; auto. lra.
  - apply Qle_trans with (b * (1 + e) * (b' * (1 + e'))).
    + apply Qmult_le_compat_nonneg; split; auto; nra.
    + setoid_replace (b * (1 + e) * (b' * (1 + e'))) with (b * b' * (1 + (e + e' + e * e'))) by ring. apply Qle_refl.
Qed.
Lemma rel_weak : forall a b e e', rel a b e -> 0 <= b -> e <= e' -> rel a b e'.
Proof. intros a b e e' [R1 R2] B E. split; nra. Qed.
Lemma rel_refl : forall a, 0 <= a -> rel a a 0.
Proof. intros. split; lra. Qed.

Lemma inv2_rel : forall f, 0 < f -> rel (inv2 f) ((1000000 / f) * (1000000 / f)) (4 * u).
Proof.
  intros f Hf. unfold inv2. set (X := 1000000 / f). assert (X0 : 0 <= X) by (unfold X; apply Qle_shift_div_l; lra).
  assert (XX : 0 <= X * X) by nra.
  pose proof (rel_fl X X 0 (rel_refl X X0) X0 ltac:(discriminate) ltac:(discriminate)) as R.
  assert (R1 : rel (fl X) X u) by (eapply rel_weak; [exact R|auto|discriminate]).
  pose proof (rel_mul _ _ _ _ _ _ R1 R1 X0 X0 ltac:(discriminate) ltac:(discriminate) ltac:(discriminate) ltac:(discriminate)) as R2.
  pose proof (rel_fl _ _ _ R2 XX ltac:(discriminate) ltac:(discriminate)) as R3.
  eapply rel_weak; [exact R3|auto|discriminate].
Qed.

Lemma delay_close : forall dm f f0, 0 <= dm -> 0 < f -> f <= f0 ->
  let t := fl (fl (dm * D) * fl (inv2 f - inv2 f0)) in
  let P := dm * (4148808 # 1000) * ((1000000 / f) * (1000000 / f)) in
  0 <= t /\ Qabs (t - true_delay dm f f0) <= P * (1 # 2 ^ 48) /\ t <= 2 * P /\ 0 <= P.
Proof.
  intros dm f f0 Hd Hf Hf0 t P. unfold true_delay. set (c := 4148808 # 1000) in *.
  pose proof (inv2_rel f Hf) as [A1 A2]. pose proof (inv2_rel f0 ltac:(lra)) as [B1 B2].
  set (A := (1000000 / f) * (1000000 / f)) in *. set (B := (1000000 / f0) * (1000000 / f0)) in *.
  assert (XA : 0 <= 1000000 / f) by (apply Qle_shift_div_l; lra). assert (XB : 0 <= 1000000 / f0) by (apply Qle_shift_div_l; lra).
  assert (XAB : 1000000 / f0 <= 1000000 / f).
  { apply inv_mono; auto. }
  assert (A0 : 0 <= A) by (unfold A; nra). assert (B0 : 0 <= B) by (unfold B; nra).
  assert (AB : B <= A) by (unfold A, B; nra).
  pose proof (inv2_mono f f0 Hf Hf0) as MO. set (a := inv2 f) in *. set (b := inv2 f0) in *. clearbody a b A B.
  assert (AB0 : 0 <= a - b) by lra.
  pose proof (fl_err (a - b)) as E. rewrite (Qabs_pos (a - b) AB0) in E. change (1 # 2 ^ 53) with u in E. apply Qabs_Qle_condition in E. destruct E as [E1 E2].
  pose proof (fl_nonneg _ AB0) as D0. set (d := fl (a - b)) in *. clearbody d.
  assert (AA : a - b <= 2 * A) by (unfold u in *; lra).
  assert (DU : d <= (A - B) + 10 * u * A) by (unfold u in *; lra). assert (DL : (A - B) - 10 * u * A <= d) by (unfold u in *; lra).
  assert (Rp : rel (fl (dm * D)) (dm * c) (4 * u)).
  { assert (Rc : rel D c u). { eapply rel_weak; [apply (rel_fl c c 0 (rel_refl c ltac:(discriminate))); discriminate|discriminate|discriminate]. }
    pose proof (rel_mul _ _ _ _ _ _ (rel_refl dm Hd) Rc Hd ltac:(discriminate) ltac:(discriminate) ltac:(discriminate) ltac:(discriminate) ltac:(discriminate)) as R2.
    assert (0 <= dm * c) by (unfold c; lra).
    pose proof (rel_fl _ _ _ R2 H ltac:(discriminate) ltac:(discriminate)) as R3. eapply rel_weak; [exact R3|auto|discriminate]. }
  assert (P0 : 0 <= dm * c) by (unfold c; lra). set (p := fl (dm * D)) in *. set (q := dm * c) in *.
  assert (p0 : 0 <= p) by (destruct Rp; unfold u in *; lra).
  destruct Rp as [R1 R2]. clearbody p q. unfold t. assert (PD : 0 <= p * d) by nra.
  pose proof (fl_err (p * d)) as F. rewrite (Qabs_pos _ PD) in F. change (1 # 2 ^ 53) with u in F. apply Qabs_Qle_condition in F. destruct F as [F1 F2].
  assert (QA : 0 <= q * A) by nra. assert (QB : 0 <= q * B) by nra. assert (QAB : 0 <= q * (A - B)) by (apply Qmult_le_0_compat; lra).
  assert (U1 : p * d <= q * (1 + 4 * u) * ((A - B) + 10 * u * A)). { apply Qmult_le_compat_nonneg; split; auto. }
  assert (U2 : q * (1 - 4 * u) * ((A - B) - 10 * u * A) <= p * d).
  { destruct (Qlt_le_dec ((A - B) - 10 * u * A) 0).
    - apply Qle_trans with 0; auto. assert (0 <= q * (1 - 4 * u)) by (unfold u in *; lra). nra.
    - apply Qmult_le_compat_nonneg; split; auto. unfold u in *; lra. }
  assert (QP : P == q * A). { unfold P. reflexivity. }
  split; [apply fl_nonneg; auto|]. unfold u in *.
  split; [|split; [|rewrite QP; auto]].
  - change (1 # 2 ^ 48) with (1 # 281474976710656). rewrite QP. apply Qabs_Qle_condition. split; lra.
  - rewrite QP. lra.
Qed.

Lemma half_even_half : forall q, Qabs (inject_Z (half_even q) - q) <= 1 # 2.
Proof.
  intro q. destruct (Qlt_le_dec (1 # 2) (Qabs (inject_Z (half_even q) - q))) as [C|C]; auto. exfalso.
  pose proof (nearest_int q (Qfloor (q + (1 # 2)))) as M. pose proof (Qfloor_le (q + (1 # 2))) as F1. pose proof (Qlt_floor (q + (1 # 2))) as F2.
  rewrite inject_Z_plus in F2. change (inject_Z 1) with 1 in F2. set (g := inject_Z (Qfloor (q + (1 # 2)))) in *. clearbody g.
  assert (Qabs (g - q) <= 1 # 2) by (apply Qabs_Qle_condition; split; lra). lra.
Qed.

Lemma shift_close : forall tInt dm f f0, 0 < tInt -> 0 <= dm -> 0 < f -> f <= f0 ->
  let d := shift tInt (fl (fl (dm * D) * fl (inv2 f - inv2 f0))) in
  (0 <= d)%Z /\
  Qabs (inject_Z d - true_delay dm f f0 / tInt) <= (1 # 2) + dm * (4148808 # 1000) * ((1000000 / f) * (1000000 / f)) / tInt * (1 # 2 ^ 47).
Proof.
  intros tInt dm f f0 Ht Hd Hf Hf0 d. destruct (delay_close dm f f0 Hd Hf Hf0) as (T0 & T1 & T2 & P0). unfold d, shift. clear d.
  set (t := fl (fl (dm * D) * fl (inv2 f - inv2 f0))) in *. set (P := dm * (4148808 # 1000) * ((1000000 / f) * (1000000 / f))) in *. set (T := true_delay dm f f0) in *.
  clearbody t P T. change (1 # 2 ^ 47) with (1 # 140737488355328). change (1 # 2 ^ 48) with (1 # 281474976710656) in T1.
  assert (I0 : 0 < / tInt) by (apply Qinv_lt_0_compat; auto). unfold Qdiv. set (i := / tInt) in *. clearbody i.
  assert (X0 : 0 <= t * i) by nra. pose proof (fl_nonneg _ X0) as Y0. pose proof (fl_err (t * i)) as E. rewrite (Qabs_pos _ X0) in E. change (1 # 2 ^ 53) with u in E. unfold u in E.
  split.
  - apply half_even_ge. change (inject_Z 0) with 0. auto.
  - pose proof (half_even_half (fl (t * i))) as HE. set (y := fl (t * i)) in *. set (h := inject_Z (half_even y)) in *. clearbody h y.
    apply Qabs_Qle_condition in T1. destruct T1 as [T1a T1b]. apply Qabs_Qle_condition in E. destruct E as [Ea Eb]. apply Qabs_Qle_condition in HE. destruct HE as [Ha Hb].
    assert (M1 : (t - T) * i <= P * (1 # 281474976710656) * i) by (apply Qmult_le_compat_r; lra).
    assert (M2 : - (P * (1 # 281474976710656)) * i <= (t - T) * i) by (apply Qmult_le_compat_r; lra).
    assert (M3 : t * i <= 2 * P * i) by (apply Qmult_le_compat_r; lra).
    apply Qabs_Qle_condition. split; lra.
Qed.
