From Coq Require Import List ZArith QArith Qround Qabs Bool Lqa Lia.
From Verif Require Export M_Ndp S_Ndp P_Num P_Time.
From Verif Require Import P_Drspec P_Vdif2.
Import ListNotations.
Open Scope Z_scope.

(** ** flat_to_multi *)
Lemma size_pos : forall sh, Forall (fun d => 1 <= d) sh -> 1 <= size sh.
Proof. intros sh H. induction H as [|d sh H1 H2 IH]; cbn; [lia|]. fold (size sh). nia. Qed.
Lemma fold_mul : forall sh a, fold_left Z.mul sh a = a * size sh.
Proof. induction sh as [|d sh IH]; intro a; cbn; [lia|]. rewrite IH. fold (size sh). ring. Qed.
Lemma size_app : forall a b, size (a ++ b) = size a * size b.
Proof. induction a as [|d a IH]; intro b; cbn [app size fold_right]; [fold (size b); lia|]. fold (size (a ++ b)) (size a). rewrite IH. ring. Qed.
Lemma size_rev : forall a, size (rev a) = size a.
Proof. induction a as [|d a IH]; [reflexivity|]. cbn [rev]. rewrite size_app, IH. cbn. fold (size a). ring. Qed.
Lemma row_major_bound : forall sh idx, Forall (fun d => 1 <= d) sh -> in_shape sh idx -> 0 <= row_major sh idx < size sh.
Proof.
  induction sh as [|d sh IH]; intros [|i is] H I; cbn [in_shape row_major size fold_right] in *; try contradiction; [lia|].
  fold (size sh). inversion H; subst. specialize (IH is H3 (proj2 I)). destruct I as [I _]. nia.
Qed.

Lemma nth_leaf : forall (A : Type) (l : list A) k, (k < length l)%nat -> get [] (nth k (map Leaf l) (Node [])) = nth_error l k.
Proof. induction l as [|a l IH]; intros k H; [cbn in H; lia|]. destruct k as [|k]; [reflexivity|]. cbn. apply IH. cbn in H. lia. Qed.
Section Flat.
Context {A : Type} (input : list A).
Definition holds (sfx : list Z) (l : list (nest A)) : Prop :=
  Forall (shaped sfx) l /\
  forall j idx, 0 <= j < zlen l -> in_shape sfx idx ->
    get idx (nth (Z.to_nat j) l (Node [])) = nth_error input (Z.to_nat (j * size sfx + row_major sfx idx)).
Lemma chunks_holds : forall n m sfx l, 1 <= n -> Forall (fun d => 1 <= d) sfx -> zlen l = m * n -> 0 <= m -> holds sfx l ->
  exists l', chunks n l = Ok l' /\ zlen l' = m /\ holds (n :: sfx) l'.
Proof.
  intros n m sfx l Hn HS HL Hm [H1 H2]. unfold chunks.
  destruct (n =? 0) eqn:E0; [lia|]. destruct (n <? 0) eqn:E1; [lia|].
  assert (C : (zlen l + n - 1) / n = m). { rewrite HL. symmetry. apply (Z.div_unique _ _ m (n - 1)); lia. }
  rewrite C. eexists. split; [reflexivity|]. split; [rewrite zlen_map, zseq_zlen; lia|].
  assert (Z1 : forall j, 0 <= j < m -> zlen (ztake n (zdrop (n * j) l)) = n).
  { intros j Hj. rewrite zlen_ztake, zlen_zdrop by nia. nia. }
  split.
  - apply Forall_map, Forall_forall. intros j Hj.
    assert (Hj2 : 0 <= j < m).
    { clear - Hj Hm. assert (G : forall k lo x, In x (zseq lo k) -> lo <= x < lo + Z.of_nat k).
      { induction k; intros lo x Hx; [destruct Hx|]. cbn [zseq In] in Hx. destruct Hx as [<-|Hx]; [lia|]. specialize (IHk _ _ Hx). lia. }
      specialize (G _ _ _ Hj). lia. }
    cbn [shaped]. eexists. split; [reflexivity|]. split; [apply Z1; auto|].
    apply Forall_forall. intros x Hx. rewrite Forall_forall in H1. apply H1.
    unfold ztake, zdrop in Hx.
    assert (F1 : forall k (q : list (nest A)), In x (firstn k q) -> In x q) by (intros k q Hq; rewrite <- (firstn_skipn k q); apply in_or_app; auto).
    assert (F2 : forall k (q : list (nest A)), In x (skipn k q) -> In x q) by (intros k q Hq; rewrite <- (firstn_skipn k q); apply in_or_app; auto).
    eauto.
  - intros j idx Hj I. rewrite zlen_map, zseq_zlen, Z2Nat.id in Hj by auto.
    destruct idx as [|i is]; cbn [in_shape] in I; [contradiction|]. destruct I as [Hi I].
    assert (NJ : nth (Z.to_nat j) (map (fun j0 => Node (ztake n (zdrop (n * j0) l))) (zseq 0 (Z.to_nat m))) (Node []) = Node (ztake n (zdrop (n * j) l))).
    { pose proof (znth_map _ _ (fun j0 => Node (ztake n (zdrop (n * j0) l))) 0 (Node []) j (zseq 0 (Z.to_nat m))) as N.
      rewrite zseq_zlen, znth_zseq in N by lia. unfold znth in N. destruct (j <? 0) eqn:EJ; [lia|]. rewrite N by lia. reflexivity. }
    rewrite NJ. cbn [get]. rewrite Z1 by auto. destruct ((0 <=? i) && (i <? n)) eqn:EI; [|lia].
    assert (NI : nth (Z.to_nat i) (ztake n (zdrop (n * j) l)) (Node []) = nth (Z.to_nat (j * n + i)) l (Node [])).
    { pose proof (znth_ztake (Node []) i n (zdrop (n * j) l) ltac:(lia)) as N. rewrite znth_zdrop in N by nia.
      unfold znth in N. destruct (i <? 0) eqn:EJ; [lia|]. destruct (i + n * j <? 0) eqn:EK; [nia|].
      rewrite N. f_equal. f_equal. lia. }
    rewrite NI, H2 by (auto; nia). cbn [row_major size fold_right]. fold (size sfx). f_equal. f_equal. ring.
Qed.
Lemma fold_dims_holds : forall rs sfx l, rs <> [] -> Forall (fun d => 1 <= d) rs -> Forall (fun d => 1 <= d) sfx ->
  zlen l = size rs -> holds sfx l ->
  exists l' d ds, fold_dims rs l = Ok l' /\ rev rs = d :: ds /\ zlen l' = d /\ holds (ds ++ sfx) l'.
Proof.
  induction rs as [|n rs IH]; intros sfx l NE HR HS HL HH; [congruence|].
  inversion HR as [|? ? Hn HR']; subst. cbn [fold_dims]. destruct rs as [|n2 rs].
  - exists l, n, []. cbn in *. repeat split; auto; try apply HH. lia.
  - cbn [size fold_right] in HL. fold (size (n2 :: rs)) in HL. pose proof (size_pos _ HR') as SP.
    destruct (chunks_holds n (size (n2 :: rs)) sfx l Hn HS ltac:(unfold size in *; cbn [fold_right] in *; lia) ltac:(lia) HH) as (l1 & E1 & Z1 & H1).
    rewrite E1. cbn [bind]. destruct (IH (n :: sfx) l1 ltac:(discriminate) HR' ltac:(constructor; auto) Z1 H1) as (l' & d & ds & E2 & R & Z2 & H2).
    exists l', d, (ds ++ [n]). split; [exact E2|]. split; [change (rev (n :: n2 :: rs)) with (rev (n2 :: rs) ++ [n]); rewrite R; reflexivity|].
    split; [auto|]. rewrite <- app_assoc. exact H2.
Qed.
Lemma flat_ok : forall shape, shape <> [] -> Forall (fun d => 1 <= d) shape -> size shape = zlen input ->
  exists t, flat_to_multi input shape = Ok t /\ shaped shape t /\
    forall idx, in_shape shape idx -> get idx t = nth_error input (Z.to_nat (row_major shape idx)).
Proof.
  intros shape NE HP HS. unfold flat_to_multi. rewrite fold_mul, Z.mul_1_l, HS, Z.eqb_refl. cbn [negb].
  assert (H0 : holds [] (map Leaf input)).
  { split.
    - apply Forall_map, Forall_forall. intros x _. cbn. eauto.
    - intros j [|? ?] Hj I; cbn in I; [|contradiction]. cbn [row_major size fold_right]. replace (j * 1 + 0) with j by ring.
      rewrite zlen_map in Hj. unfold zlen in Hj. apply nth_leaf. lia. }
  destruct (fold_dims_holds (rev shape) [] (map Leaf input)) as (l' & d & ds & E & R & ZL & H1 & H2); auto.
  - intro C. apply NE. rewrite <- (rev_involutive shape), C. reflexivity.
  - apply Forall_rev. auto.
  - rewrite zlen_map, size_rev. lia.
  - rewrite rev_involutive in R. rewrite app_nil_r in *. rewrite E. cbn [bind]. exists (Node l'). split; [reflexivity|].
    subst shape. split; [cbn; eauto|]. intros [|i is] I; cbn [in_shape] in I; [contradiction|]. destruct I as [Hi I].
    cbn [get]. destruct ((0 <=? i) && (i <? zlen l')) eqn:EI; [|lia]. rewrite H2 by (auto; lia). reflexivity.
Qed.
End Flat.

(** ** Words *)
Lemma lor_hi_lo : forall h l b, 0 <= b -> 0 <= l < 2 ^ b -> Z.lor (Z.shiftl h b) l = h * 2 ^ b + l.
Proof. intros h l b Hb Hl. rewrite Z.lor_comm, Z.shiftl_mul_pow2, (Z.mul_comm h), lor_disjoint by auto. lia. Qed.
Lemma swap_val : forall v, two_byte_swap v = (v mod 256) * 256 + (v / 256) mod 256.
Proof.
  intro v. unfold two_byte_swap. rewrite !land_255, Z.shiftr_div_pow2 by lia. change (2 ^ 8) with 256.
  rewrite lor_hi_lo; [reflexivity|lia|]. apply Z.mod_pos_bound. lia.
Qed.
Lemma swap_range : forall v, 0 <= two_byte_swap v < 65536.
Proof. intro v. rewrite swap_val. pose proof (Z.mod_pos_bound v 256). pose proof (Z.mod_pos_bound (v / 256) 256). lia. Qed.
Lemma swap_swap : forall v, two_byte_swap (two_byte_swap v) = v mod 65536.
Proof.
  intro v. rewrite !swap_val.
  assert (E : v = 65536 * (v / 65536) + 256 * ((v / 256) mod 256) + v mod 256).
  { rewrite (Z.div_mod v 256) at 1 by lia. rewrite (Z.div_mod (v / 256) 256) at 1 by lia. rewrite Z.div_div by lia. change (256 * 256) with 65536. lia. }
  set (a := v mod 256) in *. set (b := (v / 256) mod 256) in *.
  assert (0 <= a < 256) by (apply Z.mod_pos_bound; lia). assert (0 <= b < 256) by (apply Z.mod_pos_bound; lia).
  assert (E1 : (a * 256 + b) mod 256 = b) by (rewrite Z.add_comm, Z.mod_add, Z.mod_small; lia).
  assert (E2 : (a * 256 + b) / 256 = a) by (rewrite Z.add_comm, Z.div_add, Z.div_small; lia).
  rewrite E1, E2, (Z.mod_small a) by lia. apply (Z.mod_unique _ _ (v / 65536)); lia.
Qed.
Lemma swap_inv : forall v, 0 <= v < 65536 -> two_byte_swap (two_byte_swap v) = v.
Proof. intros v H. rewrite swap_swap. apply Z.mod_small. auto. Qed.

Lemma word_freq_word : forall w e, (Qabs e < 1 # 2)%Q -> freq_to_word e (word_to_freq w) = w.
Proof.
  intros w e H. unfold freq_to_word, word_to_freq. apply py_round_near.
  assert (E : (inject_Z w * inject_Z fS / inject_Z (2 ^ 32) * inject_Z (2 ^ 32) / inject_Z fS == inject_Z w)%Q).
  { field. split; discriminate. }
  rewrite E. setoid_replace (inject_Z w + e - inject_Z w)%Q with e by ring. exact H.
Qed.
Lemma freq_near : forall f, (Qabs (word_to_freq (freq_to_word 0 f) - f) <= inject_Z fS / inject_Z (2 ^ 33))%Q.
Proof.
  intro f. unfold freq_to_word, word_to_freq.
  change (inject_Z (2 ^ 32)) with 4294967296%Q. change (inject_Z (2 ^ 33)) with 8589934592%Q. change (inject_Z fS) with 196000000%Q.
  pose proof (py_round_spec (f * 4294967296 / 196000000 + 0)) as R. set (w := py_round (f * 4294967296 / 196000000 + 0)) in *. clearbody w.
  apply Qabs_Qle_condition in R. apply Qabs_Qle_condition.
  assert (E : (f * 4294967296 / 196000000 == f * (4294967296 # 196000000))%Q) by field.
  rewrite E in R. 
  assert (E2 : (inject_Z w * 196000000 / 4294967296 == inject_Z w * (196000000 # 4294967296))%Q) by field. rewrite E2.
  change (196000000 / 8589934592)%Q with (196000000 # 8589934592). lra.
Qed.

Lemma sample_word : forall s, (0 <= s)%Q -> ndpd_of_sample s = two_byte_swap (Qfloor (16 * s)).
Proof.
  intros s H. unfold ndpd_of_sample. rewrite (py_int_floor s) by auto. destruct (floor_spec s) as [A B]. set (c := Qfloor s) in *.
  rewrite py_int_floor by lra. destruct (floor_spec (16 * (s - inject_Z c))) as [A2 B2]. set (g := Qfloor (16 * (s - inject_Z c))) in *.
  assert (0 <= g < 16).
  { split; [|apply injZ_lt; change (inject_Z 16) with 16%Q; lra].
    assert (-1 < g) by (apply injZ_lt; change (inject_Z (-1)) with (-1)%Q; lra). lia. }
  rewrite lor_hi_lo by (change (2 ^ 4) with 16; lia). change (2 ^ 4) with 16. f_equal. symmetry. apply floor_eq;
    rewrite inject_Z_plus, inject_Z_mult; change (inject_Z 16) with 16%Q; lra.
Qed.
Lemma word_samples : forall w, (ndpd_samples w == inject_Z (two_byte_swap w) / 16)%Q.
Proof.
  intro w. unfold ndpd_samples. pose proof (swap_range w) as R. set (c := two_byte_swap w) in *. clearbody c.
  rewrite Z.shiftr_div_pow2 by lia. change 4095 with (2 ^ 12 - 1). change 15 with (2 ^ 4 - 1). rewrite !land_mask by lia.
  rewrite (Z.mod_small (c / 2 ^ 4)) by (change (2 ^ 4) with 16; change (2 ^ 12) with 4096; split; [apply Z.div_pos|apply Z.div_lt_upper_bound]; lia).
  assert (X : (inject_Z c == inject_Z (2 ^ 4 * (c / 2 ^ 4) + c mod 2 ^ 4))%Q) by (rewrite <- Z.div_mod by discriminate; reflexivity).
  rewrite X, inject_Z_plus, inject_Z_mult. change (inject_Z (2 ^ 4)) with 16%Q. field.
Qed.
Lemma sample_trip : forall s, (0 <= s < 4096)%Q ->
  0 <= ndpd_of_sample s < 65536 /\ (0 <= s - ndpd_samples (ndpd_of_sample s) < 1 # 16)%Q.
Proof.
  intros s H. rewrite sample_word by lra. split; [apply swap_range|]. rewrite word_samples.
  destruct (floor_spec (16 * s)) as [A B]. set (g := Qfloor (16 * s)) in *.
  rewrite swap_inv.
  - assert (E : (inject_Z g / 16 == inject_Z g * (1 # 16))%Q) by field. rewrite E. lra.
  - split; [|apply injZ_lt; change (inject_Z 65536) with 65536%Q; lra].
    assert (-1 < g) by (apply injZ_lt; change (inject_Z (-1)) with (-1)%Q; lra). lia.
Qed.
Lemma delay_trip : forall d, (0 <= d < 4096 * (1000000000 / inject_Z fS))%Q ->
  0 <= delay_to_ndpd d < 65536 /\ (0 <= d - ndpd_to_delay (delay_to_ndpd d) < (1 # 16) * (1000000000 / inject_Z fS))%Q.
Proof.
  intros d H. unfold delay_to_ndpd, ndpd_to_delay. change (inject_Z fS) with 196000000%Q in *.
  change (1000000000 / 196000000)%Q with (1000000000 # 196000000) in *. change (196000000 / 1000000000)%Q with (196000000 # 1000000000).
  destruct (sample_trip (d * (196000000 # 1000000000)) ltac:(lra)) as [R E]. split; [exact R|].
  set (x := ndpd_samples (ndpd_of_sample (d * (196000000 # 1000000000)))) in *. clearbody x. lra.
Qed.
Global Instance ndpd_of_sample_compat : Proper (Qeq ==> eq) ndpd_of_sample.
Proof.
  intros x y H. unfold ndpd_of_sample. rewrite (py_int_compat _ _ H). f_equal. f_equal. apply py_int_compat. rewrite H. reflexivity.
Qed.
Lemma word_delay_word : forall w, 0 <= w < 65536 -> delay_to_ndpd (ndpd_to_delay w) = w.
Proof.
  intros w H. unfold delay_to_ndpd, ndpd_to_delay.
  assert (E : (ndpd_samples w * (1000000000 / inject_Z fS) * (inject_Z fS / 1000000000) == inject_Z (two_byte_swap w) / 16)%Q).
  { rewrite word_samples. field. discriminate. }
  rewrite E, sample_word.
  - assert (F : Qfloor (16 * (inject_Z (two_byte_swap w) / 16)) = two_byte_swap w).
    { rewrite <- (Qfloor_Z (two_byte_swap w)) at 2. apply Qfloor_comp. field. }
    rewrite F. apply swap_inv. auto.
  - apply Qle_shift_div_l; [reflexivity|]. pose proof (swap_range w) as R. change (0 * 16)%Q with (inject_Z 0). apply injZ_le. lia.
Qed.
Lemma gain_trip : forall g, (0 <= g <= 1)%Q ->
  0 <= two_byte_swap (gain_to_ndpg g) <= 32767 /\ (0 <= g - ndpg_to_gain (gain_to_ndpg g) < 1 # 32767)%Q.
Proof.
  intros g H. unfold gain_to_ndpg, ndpg_to_gain. rewrite py_int_floor by lra. destruct (floor_spec (32767 * g)) as [A B].
  set (k := Qfloor (32767 * g)) in *.
  assert (0 <= k <= 32767).
  { split; [|assert (k < 32768) by (apply injZ_lt; change (inject_Z 32768) with 32768%Q; lra); lia].
    assert (-1 < k) by (apply injZ_lt; change (inject_Z (-1)) with (-1)%Q; lra). lia. }
  rewrite swap_inv by lia. split; [auto|].
  assert (E : (inject_Z k / 32767 == inject_Z k * (1 # 32767))%Q) by field. rewrite E. lra.
Qed.
Lemma gain_word : forall w, 0 <= w <= 32767 -> gain_to_ndpg (inject_Z w / 32767) = two_byte_swap w.
Proof.
  intros w H. unfold gain_to_ndpg. f_equal. rewrite <- (py_int_Z w) at 2. apply py_int_compat. field.
Qed.
