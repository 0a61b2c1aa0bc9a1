(** The half-sample mode. *)
From Coq Require Import List ZArith QArith Qcanon Qcabs Bool Arith Lia Lqa Permutation Sorted.
From Verif Require Import M_Robust S_Robust P_Robust P_RobustA P_RobustB P_RobustC P_RobustD.
Import ListNotations.
Open Scope Qc_scope.

Definition width (data : list Qc) (N i : nat) : Qc := item data (i + N - 1) - item data i.
(** What the scan finds *)
Lemma scan_spec data N : let '(w, j) := hsm_scan data N in
  let total := item data (length data - 1) - item data 0 in
  (forall i, (i < N)%nat -> w <= width data N i) /\ w <= total /\
  match j with
  | Some j => (j < N)%nat /\ w = width data N j /\ w < total
  | None => w = total
  end.
Proof.
  unfold hsm_scan. set (total := item data (length data - 1) - item data 0).
  enough (G : forall k, (k <= N)%nat ->
    let '(w, j) := fold_left (fun '(wMin, j) i => let w := item data (i + N - 1) - item data i in if qlt w wMin then (w, Some i) else (wMin, j)) (seq 0 k) (total, None) in
    (forall i, (i < k)%nat -> w <= width data N i) /\ w <= total /\ match j with Some j => (j < k)%nat /\ w = width data N j /\ w < total | None => w = total end) by (apply (G N); lia).
  induction k as [|k IH]; intro Hk.
  - cbn. split; [intros; lia|]. split; [apply Qcle_refl|reflexivity].
  - rewrite seq_S, fold_left_app. cbn [fold_left]. specialize (IH ltac:(lia)).
    destruct (fold_left _ (seq 0 k) (total, None)) as [w j]. destruct IH as (A & B & D). cbn [Nat.add].
    change (item data (k + N - 1) - item data k) with (width data N k).
    destruct (qlt (width data N k) w) eqn:Q.
    + apply qlt_true in Q. split; [|split].
      * intros i Hi. destruct (Nat.eq_dec i k) as [->|]; [apply Qcle_refl|]. eapply Qcle_trans; [apply Qclt_le_weak; exact Q|]. apply A. lia.
      * eapply Qcle_trans; [apply Qclt_le_weak; exact Q|exact B].
      * split; [lia|]. split; [reflexivity|]. eapply Qclt_le_trans; eassumption.
    + apply qlt_false in Q. split; [|split; [exact B|]].
      * intros i Hi. destruct (Nat.eq_dec i k) as [->|]; [exact Q|]. apply A. lia.
      * destruct j; [|exact D]. destruct D as (D1 & D2 & D3). split; [lia|]. split; assumption.
Qed.
Lemma window_in (data : list Qc) N j x : In x (firstn N (skipn j data)) -> In x data.
Proof.
  intro H. rewrite <- (firstn_skipn j data). apply in_or_app. right.
  rewrite <- (firstn_skipn N (skipn j data)). apply in_or_app. left. exact H.
Qed.
Lemma sorted_skipn l j : sorted l -> sorted (skipn j l).
Proof. unfold sorted. revert j. induction l as [|x l IH]; intros [|j] So; cbn; try assumption. inversion So; subst. apply IH. assumption. Qed.
Lemma sorted_firstn l j : sorted l -> sorted (firstn j l).
Proof.
  unfold sorted. revert j. induction l as [|x l IH]; intros [|j] So; cbn; try constructor; inversion So; subst; [apply IH; assumption|].
  rewrite Forall_forall in *. intros y Hy. apply H2. rewrite <- (firstn_skipn j l). apply in_or_app. left. exact Hy.
Qed.
Lemma item_window (data : list Qc) N j i : (i < N)%nat -> item (firstn N (skipn j data)) i = item data (j + i).
Proof.
  intro H. unfold item. revert data j. assert (F : forall l : list Qc, nth i (firstn N l) 0 = nth i l 0).
  { revert i H. induction N as [|N IHN]; intros i H l; [lia|]. destruct l, i; cbn; try reflexivity. apply IHN. lia. }
  intros data j. rewrite F. clear F. revert j. induction data as [|x l IH]; intro j.
  - destruct j; cbn; [destruct i; reflexivity|]. destruct i, j; reflexivity.
  - destruct j; [reflexivity|]. cbn. apply IH.
Qed.
Lemma window_len (data : list Qc) N j : (j + N <= length data)%nat -> length (firstn N (skipn j data)) = N.
Proof. intro H. rewrite firstn_length, skipn_length. lia. Qed.
(** The mode lies among the numbers. *)
Lemma half_len n : (4 <= n)%nat -> let N := (n / 2 + n mod 2)%nat in (2 <= N)%nat /\ (N < n)%nat /\ (2 * N - 1 <= n)%nat /\ (n <= 2 * N)%nat.
Proof.
  intro H. assert (R := Nat.div_mod n 2 ltac:(lia)). assert (n mod 2 < 2)%nat by (apply Nat.mod_upper_bound; lia). cbn zeta. lia.
Qed.
Lemma half_mean x y a b : a <= x -> x <= b -> a <= y -> y <= b -> a <= (x + y) / qn 2 <= b.
Proof. rewrite half_eq. intros H1 H2 H3 H4. split; revert H1 H2 H3 H4; qcl. Qed.
Lemma hsm_range fuel : forall data v a b, hsm fuel data = Num v -> (forall x, In x data -> a <= x <= b) -> a <= v <= b.
Proof.
  induction fuel as [|fuel IH]; intros data v a b H R; [discriminate|]. cbn [hsm] in H.
  assert (T : forall i, (i < length data)%nat -> a <= item data i <= b) by (intros i Hi; apply R, item_in, Hi).
  destruct (length data) as [|[|[|[|n]]]] eqn:L; [discriminate| | | |].
  - injection H as <-. apply T. lia.
  - injection H as <-. destruct (T 0%nat ltac:(lia)), (T 1%nat ltac:(lia)). apply half_mean; assumption.
  - destruct (T 0%nat ltac:(lia)), (T 1%nat ltac:(lia)), (T 2%nat ltac:(lia)).
    destruct (qlt _ _); injection H as <-; [apply half_mean; assumption|split; assumption].
  - set (N := (S (S (S (S n))) / 2 + S (S (S (S n))) mod 2)%nat) in *. destruct (snd (hsm_scan data N)) as [j|]; [|discriminate].
    apply (IH _ _ _ _ H). intros x Hx. apply R. eapply window_in. exact Hx.
Qed.
(** The recursion ends. *)
Lemma hsm_fuel fuel : forall data, (length data < fuel)%nat -> hsm fuel data <> NaN.
Proof.
  induction fuel as [|fuel IH]; intros data L; [lia|]. cbn [hsm].
  destruct (length data) as [|[|[|[|n]]]] eqn:E; try discriminate; [destruct (qlt _ _); discriminate|].
  assert (B := half_len (S (S (S (S n)))) ltac:(lia)). cbn zeta in B.
  set (N := (S (S (S (S n))) / 2 + S (S (S (S n))) mod 2)%nat) in *.
  destruct (snd (hsm_scan data N)) as [j|] eqn:Ej; [|discriminate].
  apply IH. rewrite firstn_length. lia.
Qed.
Lemma mode_defined l : mode l <> NaN.
Proof. unfold mode. apply hsm_fuel. lia. Qed.
Theorem mode_range l v a b : mode l = Num v -> (forall x, In x l -> a <= x <= b) -> a <= v <= b.
Proof. unfold mode. intros H R. apply (hsm_range _ _ _ _ _ H). intros x Hx. apply R. eapply Permutation_in; [symmetry; apply sort_perm|exact Hx]. Qed.
(** Equal numbers, four or more *)
Theorem mode_equal x n : (4 <= n)%nat -> mode (repeat x n) = UnboundLocalError.
Proof.
  intro H. unfold mode.
  assert (So : sort (repeat x n) = repeat x n).
  { apply sort_of_sorted. unfold sorted. clear H. induction n; cbn; constructor; [assumption|]. rewrite Forall_forall. intros y Hy. apply repeat_spec in Hy. subst. apply Qcle_refl. }
  rewrite So. clear So. cbn [hsm]. rewrite repeat_length.
  destruct n as [|[|[|[|n]]]]; try lia. set (n' := S (S (S (S n)))) in *. set (N := (n' / 2 + n' mod 2)%nat).
  assert (I : forall i, (i < n')%nat -> item (repeat x n') i = x) by (intros i Hi; unfold item; apply repeat_spec with (n := n'); apply nth_In; rewrite repeat_length; exact Hi).
  assert (Q := scan_spec (repeat x n') N). destruct (hsm_scan (repeat x n') N) as [w [j|]]; cbn [snd]; [|reflexivity].
  exfalso. destruct Q as (_ & _ & Q1 & Q2 & Q3). rewrite repeat_length in Q3.
  assert (B := half_len n' H). cbn zeta in B. fold N in B. clearbody N. unfold width in Q2. rewrite !I in Q2 by lia. rewrite !I in Q3 by lia. rewrite Q2 in Q3. exact (Qclt_not_eq _ _ Q3 eq_refl).
Qed.
(** An odd number of numbers, five or more: the mode lies in the narrowest interval with more than half of them. *)
Lemma item_inside s a b : sorted s -> forall i j, (i <= j < length s)%nat -> a <= item s i -> item s j <= b -> (j - i + 1 <= inside a b s)%nat.
Proof.
  unfold sorted, item. induction 1 as [|y s So IH F]; intros i j L A B; cbn in L; [lia|].
  cbn [inside]. rewrite Forall_forall in F. destruct i as [|i], j as [|j]; cbn [nth] in A, B; try lia.
  - destruct (Qclt_le_dec y a) as [H|H]; [exfalso; exact (Qclt_not_le _ _ H A)|]. destruct (Qclt_le_dec b y) as [H'|H']; [exfalso; exact (Qclt_not_le _ _ H' B)|]. lia.
  - assert (Y : y <= nth j s 0) by (apply F, nth_In; lia).
    destruct (Qclt_le_dec y a) as [H|H]; [exfalso; exact (Qclt_not_le _ _ H A)|].
    destruct (Qclt_le_dec b y) as [H'|H']; [exfalso; apply (Qclt_not_le _ _ H'); eapply Qcle_trans; eassumption|].
    assert (K := IH 0%nat j ltac:(lia)). assert (A' : a <= nth 0 s 0) by (eapply Qcle_trans; [exact A|apply F, nth_In; lia]). specialize (K A' B). lia.
  - assert (K := IH i j ltac:(lia) A B). lia.
Qed.
Lemma inside_consecutive s a b N : sorted s -> (1 <= N <= inside a b s)%nat -> exists i, (i + N <= length s)%nat /\ a <= item s i /\ item s (i + N - 1) <= b.
Proof.
  unfold sorted, item. induction 1 as [|y s So IH F]; cbn [inside]; intro L; [lia|].
  rewrite Forall_forall in F. destruct (Qclt_le_dec y a) as [H|H].
  - destruct (IH ltac:(lia)) as (i & I1 & I2 & I3). exists (S i). cbn [length]. split; [lia|]. split; [exact I2|].
    replace (S i + N - 1)%nat with (S (i + N - 1)) by lia. exact I3.
  - destruct (Qclt_le_dec b y) as [H'|H'].
    + exfalso. assert (Z : inside a b s = 0%nat).
      { clear -F H'. induction s as [|z s IHs]; [reflexivity|]. cbn [inside]. rewrite IHs by (intros x Hx; apply F; right; exact Hx).
        assert (b < z) by (eapply Qclt_le_trans; [exact H'|apply F; left; reflexivity]).
        destruct (Qclt_le_dec z a); [reflexivity|]. destruct (Qclt_le_dec b z); [reflexivity|]. exfalso. exact (Qclt_not_le _ _ H q0). }
      lia.
    + exists 0%nat. cbn [length Nat.add].
      assert (I := inside_count a b s). assert (C := count_le (fun x => qle a x && qle x b) s). rewrite <- I in C.
      split; [lia|]. split; [exact H|]. destruct N as [|[|N]]; try lia; [exact H'|].
      replace (S (S N) - 1)%nat with (S N) by lia. cbn [nth].
      (* the first N+1 of s are inside as well *)
      clear IH. assert (Q : (S N <= inside a b s)%nat) by lia.
      assert (D := down_count (fun x => qle x b) s N So ltac:(lia)). unfold item in D.
      apply qle_true. apply D.
      * intros x z L1 L2. apply qle_true in L2. apply qle_true. eapply Qcle_trans; eassumption.
      * rewrite inside_count in Q. eapply Nat.lt_le_trans; [exact Q|]. apply count_impl. intros x _ Hx. apply andb_true_iff in Hx. apply Hx.
Qed.
Lemma inside_perm a b l m : Permutation l m -> inside a b l = inside a b m.
Proof. intro P. rewrite !inside_count. apply count_perm, P. Qed.
Theorem mode_narrowest l v N : mode l = Num v -> (length l = 2 * N - 1)%nat -> (3 <= N)%nat ->
  exists a b, a <= v <= b /\ (N <= inside a b l)%nat /\ (forall a' b', (N <= inside a' b' l)%nat -> b - a <= b' - a').
Proof.
  unfold mode. intros H L LN. assert (So := sort_sorted l). assert (SL := sort_length l). assert (PI := fun a b => inside_perm a b _ _ (sort_perm l)).
  set (s := sort l) in *. cbn [hsm] in H. rewrite SL in H.
  destruct (length l) as [|[|[|[|n]]]] eqn:E; try lia. set (n' := S (S (S (S n)))) in *.
  assert (EN : (n' / 2 + n' mod 2)%nat = N).
  { assert (R := Nat.div_mod n' 2 ltac:(lia)). assert (n' mod 2 < 2)%nat by (apply Nat.mod_upper_bound; lia). lia. }
  rewrite EN in H. assert (Q := scan_spec s N). destruct (hsm_scan s N) as [w [j|]]; cbn [snd] in H; [|discriminate].
  destruct Q as (Q0 & _ & Q1 & Q2 & Q3).
  exists (item s j), (item s (j + N - 1)). split; [|split].
  - apply (hsm_range _ _ _ _ _ H). intros x Hx. apply (In_nth _ _ 0) in Hx. destruct Hx as (i & Hi & <-).
    change (nth i (firstn N (skipn j s)) 0) with (item (firstn N (skipn j s)) i).
    rewrite window_len in Hi by lia. rewrite item_window by exact Hi. split; apply sorted_item; try exact So; lia.
  - rewrite PI. assert (K := item_inside s (item s j) (item s (j + N - 1)) So j (j + N - 1)%nat ltac:(lia) (Qcle_refl _) (Qcle_refl _)). lia.
  - intros a' b' K. rewrite PI in K. destruct (inside_consecutive s a' b' N So ltac:(lia)) as (i & I1 & I2 & I3).
    specialize (Q0 i ltac:(lia)). rewrite Q2 in Q0. unfold width in Q0. revert Q0 I2 I3. generalize (item s (i + N - 1)), (item s i), (item s (j + N - 1)), (item s j). clear. qcl.
Qed.

(** Moved and stretched *)
Section Affine.
Context (k t : Qc) (K : 0 < k).
Notation aff := (aff k t).
Lemma diff_aff x y u v : qlt (aff x - aff y) (k * (u - v)) = qlt (x - y) (u - v).
Proof. unfold qlt. f_equal. assert (U := scale_le k K (u - v) (x - y)). unfold qle in U. replace (aff x - aff y) with (k * (x - y)) by (unfold P_RobustD.aff; ring). exact U. Qed.
Lemma scan_aff data N : (2 * N - 1 <= length data)%nat -> (1 <= N)%nat ->
  hsm_scan (map aff data) N = (k * fst (hsm_scan data N), snd (hsm_scan data N)).
Proof.
  intros L LN. unfold hsm_scan. rewrite map_length.
  assert (E : item (map aff data) (length data - 1) - item (map aff data) 0 = k * (item data (length data - 1) - item data 0)).
  { rewrite !item_map by lia. unfold P_RobustD.aff. ring. }
  rewrite E. set (total := item data (length data - 1) - item data 0). clearbody total. clear E.
  enough (G : forall m, (m <= N)%nat -> let f := fold_left (fun '(wMin, j) i => let w := item data (i + N - 1) - item data i in if qlt w wMin then (w, Some i) else (wMin, j)) (seq 0 m) (total, None) in
    fold_left (fun '(wMin, j) i => let w := item (map aff data) (i + N - 1) - item (map aff data) i in if qlt w wMin then (w, Some i) else (wMin, j)) (seq 0 m) (k * total, None)
    = (k * fst f, snd f)) by (apply G; lia).
  induction m as [|m IH]; intro Hm; [reflexivity|]. specialize (IH ltac:(lia)). cbn zeta in *.
  rewrite seq_S, !fold_left_app, IH. destruct (fold_left _ (seq 0 m) (total, None)) as [w j]. cbn [fold_left fst snd Nat.add].
  rewrite !item_map by lia. assert (D := diff_aff (item data (m + N - 1)) (item data m) w 0).
  replace (w - 0) with w in D by ring. rewrite D. destruct (qlt _ w); [|reflexivity]. cbn [fst snd]. f_equal. unfold P_RobustD.aff. ring.
Qed.
Lemma hsm_aff fuel : forall data, hsm fuel (map aff data) = match hsm fuel data with Num v => Num (aff v) | e => e end.
Proof.
  induction fuel as [|fuel IH]; intro data; [reflexivity|]. cbn [hsm]. rewrite map_length.
  destruct (length data) as [|[|[|[|n]]]] eqn:L.
  - reflexivity.
  - rewrite item_map by lia. reflexivity.
  - rewrite !item_map by lia. f_equal. rewrite !half_eq. unfold P_RobustD.aff. clear K IH. generalize (item data 0), (item data 1). intros x y.
    assert (T : t = dec 1 2 * (t + t)) by qcl. rewrite T at 3. ring.
  - rewrite !item_map by lia.
    assert (D := diff_aff (item data 1) (item data 0) (item data 2) (item data 1)).
    replace (k * (item data 2 - item data 1)) with (aff (item data 2) - aff (item data 1)) in D by (unfold P_RobustD.aff; ring). rewrite D. clear D.
    destruct (qlt (item data 1 - item data 0) (item data 2 - item data 1)); [|reflexivity]. f_equal. rewrite !half_eq. unfold P_RobustD.aff. clear. generalize (item data 0), (item data 1). intros x y.
    assert (T : t = dec 1 2 * (t + t)) by qcl. rewrite T at 3. ring.
  - assert (B := half_len (S (S (S (S n)))) ltac:(lia)). cbn zeta in B.
    set (N := (S (S (S (S n))) / 2 + S (S (S (S n))) mod 2)%nat) in *.
    rewrite scan_aff by lia. cbn [snd]. destruct (snd (hsm_scan data N)) as [j|]; [|reflexivity].
    rewrite skipn_map, firstn_map. apply IH.
Qed.
Theorem mode_aff l : mode (map aff l) = match mode l with Num v => Num (aff v) | e => e end.
Proof. unfold mode. rewrite sort_map by (exact (aff_mono k t K)). rewrite map_length. apply hsm_aff. Qed.
End Affine.
