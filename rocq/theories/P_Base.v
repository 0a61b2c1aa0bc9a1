From Coq Require Import List ZArith Bool Lia Sorted.
From Verif Require Import M_Base S_Base.
Import ListNotations.
Open Scope Z_scope.
Ltac Zify.zify_post_hook ::= Z.div_mod_to_equations.

Lemma range_nil : forall a b, b <= a -> range a b = [].
Proof. intros. unfold range. replace (Z.to_nat (b - a)) with 0%nat by lia. reflexivity. Qed.
Lemma range_cons : forall a b, a < b -> range a b = a :: range (a + 1) b.
Proof.
  intros a b H. unfold range. replace (Z.to_nat (b - a)) with (S (Z.to_nat (b - (a + 1)))) by lia.
  cbn [seq map]. rewrite Z.add_0_r. f_equal. rewrite <- seq_shift, map_map. apply map_ext. intro. lia.
Qed.
Lemma range_in : forall a b x, In x (range a b) <-> a <= x < b.
Proof.
  intros a b x. unfold range. rewrite in_map_iff. split.
  - intros (k & <- & H). apply in_seq in H. lia.
  - intro H. exists (Z.to_nat (x - a)). split; [lia|]. apply in_seq. lia.
Qed.
Lemma range_len : forall a b, zlen (range a b) = Z.max 0 (b - a).
Proof. intros. unfold range, zlen. rewrite map_length, seq_length. lia. Qed.

(** ** The index pairs *)
Definition pairs (off n : Z) : list (Z * Z) := flat_map (fun i => map (fun j => (i, j)) (range (i + off) n)) (range 0 n).
Definition pairs_from (off n a : Z) : list (Z * Z) := flat_map (fun i => map (fun j => (i, j)) (range (i + off) n)) (range a n).

Lemma pairs_from_in : forall off n a i j, 0 <= off -> In (i, j) (pairs_from off n a) <-> a <= i /\ i + off <= j < n.
Proof.
  intros off n a i j Ho. unfold pairs_from. rewrite in_flat_map. split.
  - intros (k & Hk & H). apply range_in in Hk. apply in_map_iff in H. destruct H as (m & E & Hm). apply range_in in Hm. inversion E; subst. lia.
  - intro H. exists i. split; [apply range_in; lia|]. apply in_map_iff. exists j. split; auto. apply range_in. lia.
Qed.
Lemma pairs_sorted : forall off n a, 0 <= off -> StronglySorted lex_lt (pairs_from off n a).
Proof.
  intros off n a Ho. assert (G : forall k a, Z.of_nat k = n - a \/ n <= a -> StronglySorted lex_lt (pairs_from off n a)).
  { clear a. induction k as [|k IH]; intros a H.
    - unfold pairs_from. rewrite range_nil by lia. constructor.
    - destruct (Z.le_gt_cases n a); [unfold pairs_from; rewrite range_nil by lia; constructor|].
      unfold pairs_from. rewrite range_cons by lia. cbn [flat_map]. fold (pairs_from off n (a + 1)).
      assert (S1 := IH (a + 1) ltac:(lia)).
      assert (R : forall m c, Z.of_nat m = n - c \/ n <= c -> StronglySorted lex_lt (map (fun j => (a, j)) (range c n) ++ pairs_from off n (a + 1))).
      { induction m as [|m IHm]; intros c Hc.
        - rewrite (range_nil c n) by lia. exact S1.
        - destruct (Z.le_gt_cases n c); [rewrite (range_nil c n) by lia; exact S1|].
          rewrite range_cons by lia. cbn [map app]. constructor; [apply IHm; lia|].
          apply Forall_forall. intros [i j] HI. apply in_app_iff in HI. destruct HI as [HI|HI].
          + apply in_map_iff in HI. destruct HI as (x & E & Hx). apply range_in in Hx. inversion E; subst. right. cbn. lia.
          + apply pairs_from_in in HI; auto. left. cbn. lia. }
      apply (R (Z.to_nat (n - (a + off)))). lia. }
  apply (G (Z.to_nat (n - a))). lia.
Qed.
Lemma pairs_all : forall auto n, all_pairs auto n (pairs (if auto then 0 else 1) n).
Proof.
  intros auto n. change (pairs (if auto then 0 else 1) n) with (pairs_from (if auto then 0 else 1) n 0). split.
  - apply pairs_sorted. destruct auto; lia.
  - intros i j. rewrite pairs_from_in by (destruct auto; lia). destruct auto; lia.
Qed.
Lemma pairs_len : forall off n a, 0 <= off <= 1 -> 0 <= a <= n -> 2 * zlen (pairs_from off n a) = (n - a) * (n - a + 1 - 2 * off).
Proof.
  intros off n a Ho Ha. remember (Z.to_nat (n - a)) as k eqn:Hk. revert a Ha Hk.
  induction k as [|k IH]; intros a Ha Hk; unfold pairs_from.
  - replace a with n by lia. rewrite range_nil by lia. cbn [flat_map]. change (zlen (@nil (Z * Z))) with 0. lia.
  - rewrite range_cons by lia. cbn [flat_map]. fold (pairs_from off n (a + 1)). rewrite zlen_app.
    specialize (IH (a + 1) ltac:(lia) ltac:(lia)).
    replace (zlen (map (fun j => (a, j)) (range (a + off) n))) with (zlen (range (a + off) n)) by (unfold zlen; rewrite map_length; reflexivity).
    rewrite range_len. nia.
Qed.

Lemma pairs_in : forall (auto : bool) n i j, In (i, j) (pairs (if auto then 0 else 1) n) -> 0 <= i < n /\ 0 <= j < n /\ i <= j.
Proof.
  intros auto n i j H. apply (proj1 (pairs_from_in (if auto then 0 else 1) n 0 i j ltac:(destruct auto; lia))) in H. destruct auto; lia.
Qed.

(** ** The listed antennas *)
Section G.
Context {A : Type}.
Lemma py_index_ok : forall (d : A) l i, 0 <= i < zlen l -> py_index l i = Ok (znth d i l).
Proof.
  intros d l i H. unfold py_index, znth. destruct (Z.ltb_spec i 0); [lia|].
  rewrite (nth_error_nth' l d) by (unfold zlen in H; lia). destruct (Z.ltb_spec i 0); [lia|reflexivity].
Qed.
Lemma py_index_high : forall (l : list A) i, zlen l <= i -> py_index l i = Raise IndexError.
Proof.
  intros l i H. unfold py_index. destruct (Z.ltb_spec i 0); [pose proof (zlen_nonneg l); lia|].
  destruct (nth_error l (Z.to_nat i)) eqn:E; [|reflexivity]. assert (nth_error l (Z.to_nat i) <> None) by congruence.
  apply nth_error_Some in H1. unfold zlen in H. lia.
Qed.
Lemma collect_ok : forall B C (f : B -> res C) g l, (forall x, In x l -> f x = Ok (g x)) -> collect (map f l) = Ok (map g l).
Proof.
  intros B C f g l. induction l as [|x l IH]; intro H; [reflexivity|]. cbn [map collect]. rewrite H by (left; auto).
  cbn [bind]. rewrite IH by (intros; apply H; right; auto). reflexivity.
Qed.
Lemma collect_raise : forall B C (f : B -> res C) l, (exists x e, In x l /\ f x = Raise e) -> (forall x e, In x l -> f x = Raise e -> e = IndexError) ->
  collect (map f l) = Raise IndexError.
Proof.
  intros B C f l. induction l as [|x l IH]; intros (y & e & HI & HE) H; [destruct HI|]. cbn [map collect].
  destruct (f x) as [c|e'] eqn:E; cbn [bind].
  - rewrite IH; [reflexivity| |intros z e2 Hz; apply H; right; exact Hz].
    destruct HI as [->|HI]; [congruence|]. eauto.
  - f_equal. apply (H x e'); [left|]; auto.
Qed.
Lemma get_baselines_map : forall a1 a2 (auto : bool), let off := if auto then 0 else 1 in
  @get_baselines A a1 a2 auto = collect (map (fun p => pair_at a1 (match a2 with Some l => l | None => a1 end) (fst p) (snd p)) (pairs off (zlen a1))).
Proof.
  intros a1 a2 auto off. unfold get_baselines, pairs. fold off. f_equal. generalize (range 0 (zlen a1)).
  induction l as [|i l IH]; [reflexivity|]. cbn [flat_map]. rewrite map_app, IH, map_map. reflexivity.
Qed.
Lemma get_baselines_ok : forall (d : A) a1 a2 (auto : bool), let b := match a2 with Some l => l | None => a1 end in
  zlen a1 <= zlen b ->
  get_baselines a1 a2 auto = Ok (map (fun p => (znth d (fst p) a1, znth d (snd p) b)) (pairs (if auto then 0 else 1) (zlen a1))).
Proof.
  intros d a1 a2 auto b H. rewrite get_baselines_map. apply collect_ok. intros [i j] HI.
  apply pairs_in in HI. cbn [fst snd]. unfold pair_at.
  rewrite (py_index_ok d) by (destruct auto; lia). cbn [bind]. fold b. rewrite (py_index_ok d) by (destruct auto; lia). reflexivity.
Qed.
Lemma get_baselines_short : forall a1 b auto, zlen b < zlen a1 -> (auto = true \/ 2 <= zlen a1) ->
  @get_baselines A a1 (Some b) auto = Raise IndexError.
Proof.
  intros a1 b auto H HA. rewrite get_baselines_map. apply collect_raise.
  - exists (0, zlen a1 - 1). pose proof (zlen_nonneg b). destruct a1 as [|x a1]; [change (zlen (@nil A)) with 0 in H; lia|].
    exists IndexError. split.
    + apply (pairs_from_in (if auto then 0 else 1) _ 0); destruct auto, HA; try discriminate; lia.
    + unfold pair_at. cbn [fst snd]. rewrite (py_index_ok x) by lia. cbn [bind]. rewrite py_index_high by lia. reflexivity.
  - intros [i j] e HI. apply pairs_in in HI. unfold pair_at. cbn [fst snd].
    destruct a1 as [|x a1]; [change (zlen (@nil A)) with 0 in *; destruct auto; lia|].
    rewrite (py_index_ok x) by (destruct auto; lia). cbn [bind].
    destruct (Z.le_gt_cases (zlen b) j); [rewrite py_index_high by lia; cbn; congruence|].
    rewrite (py_index_ok x b) by (destruct auto; lia). discriminate.
Qed.

(** ** Looking a pair up *)
Context (eqb : A -> A -> bool) (eqb_ok : forall x y, eqb x y = true <-> x = y).
Lemma find_pair_first : forall x y l i k, (k < length l)%nat ->
  (forall m p, nth_error l m = Some p -> (m < k)%nat -> both_in eqb x y p = false) ->
  (forall p, nth_error l k = Some p -> both_in eqb x y p = true) -> find_pair eqb x y l i = i + Z.of_nat k.
Proof.
  intros x y l. induction l as [|p l IH]; intros i k Hk HB HK; [simpl in Hk; lia|]. cbn [find_pair]. destruct k as [|k].
  - rewrite (HK p eq_refl). lia.
  - rewrite (HB 0%nat p eq_refl) by lia. rewrite (IH (i + 1) k).
    + lia.
    + cbn [length] in Hk. lia.
    + intros m q Hm Hlt. apply (HB (S m) q Hm). lia.
    + intros q Hq. apply (HK q Hq).
Qed.
Lemma find_pair_none : forall x y l i, (forall p, In p l -> both_in eqb x y p = false) -> find_pair eqb x y l i = -1.
Proof.
  intros x y l. induction l as [|p l IH]; intros i H; [reflexivity|]. cbn [find_pair]. rewrite H by (left; auto). apply IH. intros; apply H; right; auto.
Qed.
Lemma both_in_spec : forall x y p, both_in eqb x y p = true <-> (x = fst p \/ x = snd p) /\ (y = fst p \/ y = snd p).
Proof. intros. unfold both_in. rewrite andb_true_iff, !orb_true_iff, !eqb_ok. reflexivity. Qed.
Lemma znth_inj : forall (d : A) l i j, NoDup l -> 0 <= i < zlen l -> 0 <= j < zlen l -> znth d i l = znth d j l -> i = j.
Proof.
  intros d l i j HN Hi Hj H. unfold znth in H. destruct (Z.ltb_spec i 0), (Z.ltb_spec j 0); try lia. unfold zlen in *.
  assert (Z.to_nat i = Z.to_nat j) by (apply (proj1 (NoDup_nth l d) HN); auto; lia). lia.
Qed.
Lemma sorted_nodup : forall l, StronglySorted lex_lt l -> NoDup l.
Proof.
  induction 1 as [|p l S IH F]; constructor; auto. intro HI. rewrite Forall_forall in F. specialize (F p HI).
  destruct F as [F|[_ F]]; lia.
Qed.
(** A pair of different antennas is found where it is listed. *)
Lemma lookup_cross : forall (d : A) a (auto : bool) k i j, NoDup a -> i <> j ->
  nth_error (pairs (if auto then 0 else 1) (zlen a)) k = Some (i, j) ->
  forall x y, (x, y) = (znth d i a, znth d j a) \/ (y, x) = (znth d i a, znth d j a) ->
  antennas_to_baseline eqb x y a None None auto = Ok (Z.of_nat k).
Proof.
  intros d a auto k i j HN Hij Hk x y Hxy. unfold antennas_to_baseline. rewrite (get_baselines_ok d) by lia. cbn [bind]. f_equal.
  set (P := pairs (if auto then 0 else 1) (zlen a)) in *.
  assert (Off : 0 <= (if auto then 0 else 1)) by (destruct auto; lia).
  assert (HP : forall p, In p P -> 0 <= fst p /\ fst p <= snd p /\ snd p < zlen a).
  { intros [u v] HI. apply pairs_in in HI. cbn. destruct auto; lia. }
  assert (HKI : In (i, j) P) by (eapply nth_error_In; eauto). pose proof (HP _ HKI) as B. cbn [fst snd] in B.
  assert (ND : NoDup P) by (apply sorted_nodup, pairs_all).
  assert (KL : (k < length P)%nat) by (apply nth_error_Some; congruence).
  rewrite (find_pair_first x y _ 0 k).
  - lia.
  - rewrite map_length. auto.
  - intros m p Hm Hlt. rewrite nth_error_map in Hm. destruct (nth_error P m) as [[u v]|] eqn:E; [|discriminate]. cbn in Hm.
    apply Bool.not_true_iff_false. intro HB. apply both_in_spec in HB. inversion Hm; subst p. cbn [fst snd] in HB.
    pose proof (HP _ (nth_error_In _ _ E)) as C. cbn [fst snd] in C.
    assert (X : i = u /\ j = v).
    { assert (IJ : (znth d i a = znth d u a \/ znth d i a = znth d v a) /\ (znth d j a = znth d u a \/ znth d j a = znth d v a))
        by (destruct Hxy as [Hxy|Hxy]; inversion Hxy; subst; tauto).
      destruct IJ as [I J].
      assert (I' : i = u \/ i = v) by (destruct I as [I|I]; [left|right]; apply (znth_inj d a) in I; auto; lia).
      assert (J' : j = u \/ j = v) by (destruct J as [J|J]; [left|right]; apply (znth_inj d a) in J; auto; lia). lia. }
    destruct X; subst u v. assert (m = k); [|lia]. apply (proj1 (NoDup_nth_error P) ND); [lia|congruence].
  - intros p Hp. rewrite nth_error_map, Hk in Hp. cbn in Hp. inversion Hp; subst. apply both_in_spec. cbn [fst snd].
    destruct Hxy as [Hxy|Hxy]; inversion Hxy; subst; tauto.
Qed.
(** An antenna that is not listed, or the same antenna twice in a list of two... *)
Lemma lookup_absent : forall a auto x y, (~ In x a \/ ~ In y a) -> antennas_to_baseline eqb x y a None None auto = Ok (-1).
Proof.
  intros a auto x y H. unfold antennas_to_baseline. rewrite (get_baselines_ok x) by lia. cbn [bind]. f_equal.
  apply find_pair_none. intros p HI. apply in_map_iff in HI. destruct HI as ([u v] & <- & HI).
  apply pairs_in in HI.
  apply Bool.not_true_iff_false. intro HB. apply both_in_spec in HB. cbn [fst snd] in HB.
  assert (IN : forall w, 0 <= w < zlen a -> In (znth x w a) a).
  { intros w Hw. unfold znth. destruct (Z.ltb_spec w 0); [lia|]. apply nth_In. unfold zlen in Hw. lia. }
  assert (Iu : In (znth x u a) a) by (apply IN; destruct auto; lia). assert (Iv : In (znth x v a) a) by (apply IN; destruct auto; lia).
  destruct HB as [[E1|E1] [E2|E2]]; destruct H as [H|H]; apply H; first [rewrite E1; assumption|rewrite E2; assumption].
Qed.
(** The same antenna twice finds the first baseline with it. *)
Lemma lookup_auto : forall (d : A) a (auto : bool) i, NoDup a -> 1 <= i < zlen a ->
  antennas_to_baseline eqb (znth d i a) (znth d i a) a None None auto = Ok (if auto then i else i - 1).
Proof.
  intros d a auto i HN Hi. unfold antennas_to_baseline. rewrite (get_baselines_ok d) by lia. cbn [bind]. f_equal.
  set (off := if auto then 0 else 1). assert (Ho : 0 <= off <= 1) by (unfold off; destruct auto; lia).
  assert (EP : forall m, 0 <= m < zlen a - off -> nth_error (pairs off (zlen a)) (Z.to_nat m) = Some (0, m + off)).
  { intros m Hm. unfold pairs. rewrite range_cons by lia. cbn [flat_map]. rewrite nth_error_app1.
    - rewrite nth_error_map. unfold range. rewrite nth_error_map.
      rewrite (nth_error_nth' _ 0%nat) by (rewrite seq_length; lia). rewrite seq_nth by lia. cbn. do 2 f_equal. lia.
    - rewrite map_length. pose proof (range_len (0 + off) (zlen a)) as L. unfold zlen in *. lia. }
  rewrite (find_pair_first _ _ _ 0 (Z.to_nat (i - off))).
  - unfold off. destruct auto; lia.
  - rewrite map_length. apply nth_error_Some. rewrite EP by lia. discriminate.
  - intros m p Hm Hlt. rewrite nth_error_map in Hm. rewrite <- (Nat2Z.id m) in Hm. rewrite EP in Hm by lia.
    cbn [option_map fst snd] in Hm. assert (EQ : p = (znth d 0 a, znth d (Z.of_nat m + off) a)) by congruence. subst p. apply Bool.not_true_iff_false. intro HB. apply both_in_spec in HB. cbn [fst snd] in HB.
    destruct HB as [[HB|HB] _]; apply (znth_inj d a) in HB; auto; lia.
  - intros p Hp. rewrite nth_error_map, EP in Hp by lia. cbn [option_map fst snd] in Hp. assert (EQ : p = (znth d 0 a, znth d (i - off + off) a)) by congruence. subst p. apply both_in_spec. cbn [fst snd].
    replace (i - off + off) with i by lia. tauto.
Qed.
End G.

(** ** Packed numbers *)
Lemma merge_bits_add : forall s a b, 0 <= s -> 0 <= b < 2 ^ s -> merge_bits s a b = a * 2 ^ s + b.
Proof.
  intros s a b Hs Hb. unfold merge_bits. rewrite Z.shiftl_mul_pow2 by auto.
  rewrite Z.add_nocarry_lxor, Z.lxor_lor; [reflexivity| |]; apply Z.bits_inj'; intros n Hn; rewrite Z.land_spec, Z.bits_0;
    (destruct (Z.lt_ge_cases n s);
     [rewrite Z.mul_pow2_bits_low by lia; reflexivity
     |rewrite <- (Z.mod_small b (2 ^ s)) by auto; rewrite Z.mod_pow2_bits_high by lia; apply andb_false_r]).
Qed.
Lemma split_merge_bits : forall s a b, 0 <= s -> 0 <= a < 2 ^ s -> 0 <= b < 2 ^ s -> split_bits s (merge_bits s a b) = (a, b).
Proof.
  intros s a b Hs Ha Hb. rewrite merge_bits_add by auto. unfold split_bits.
  replace (2 ^ s - 1) with (Z.ones s) by (rewrite Z.ones_equiv; lia). rewrite !Z.land_ones, Z.shiftr_div_pow2 by auto.
  assert (P : 0 < 2 ^ s) by (apply Z.pow_pos_nonneg; lia).
  rewrite Z.div_add_l, (Z.div_small b), Z.add_0_r by lia. rewrite Z.add_comm, Z.mod_add, !Z.mod_small by lia. reflexivity.
Qed.
Lemma merge_bits_lt : forall s a b c d, 0 <= s -> 0 <= b < 2 ^ s -> 0 <= d < 2 ^ s ->
  (merge_bits s a b < merge_bits s c d <-> lex_lt (a, b) (c, d)).
Proof. intros s a b c d Hs Hb Hd. rewrite !merge_bits_add by auto. unfold lex_lt. cbn [fst snd]. nia. Qed.
Lemma split_merge_uvfits : forall a b, 0 <= a < 2048 -> 0 <= b < 2048 -> split_uvfits (merge_uvfits a b) = (a, b).
Proof.
  intros a b Ha Hb. unfold merge_uvfits, split_uvfits.
  destruct (Z.ltb_spec 255 a), (Z.ltb_spec 255 b); cbn [orb]; match goal with |- context [65536 <=? ?x] => destruct (Z.leb_spec 65536 x) end; try lia; f_equal; lia.
Qed.
