(** Downsampling, interpolation and smoothing: auxiliary results. *)
From Coq Require Import String List ZArith Lia QArith Qcanon Bool.
From Verif Require Import LibList M_Py M_Base M_Math S_Corr S_Math P_Base P_Corr P_Beam P_CorrFX P_CorrPsd.
Import ListNotations.
Open Scope Z_scope.

Lemma asum_total l : asum l = total l.
Proof.
  unfold asum. assert (G : forall l a, fold_left Qcplus l a = (a + total l)%Qc).
  { clear l. induction l as [|x l IH]; intro a; cbn [fold_left total]; [ring|]. rewrite IH. ring. }
  rewrite G. ring.
Qed.
Lemma zlen_range lo hi : zlen (range lo hi) = Z.max 0 (hi - lo).
Proof. unfold zlen, range. rewrite map_length, seq_length. lia. Qed.
Lemma range_ext {A} (f g : Z -> A) lo hi : (forall i, lo <= i < hi -> f i = g i) -> map f (range lo hi) = map g (range lo hi).
Proof. intro H. apply map_ext_in. intros i Hi. apply range_in in Hi. auto. Qed.
Lemma range_map_shift {A} (f : Z -> A) lo hi a : map (fun k => f (k + a)) (range lo hi) = map f (range (lo + a) (hi + a)).
Proof. rewrite range_shift, map_map. reflexivity. Qed.

(** ** Downsampling *)
Lemma run_range (l : list Qc) k i : 0 <= i -> 0 <= k -> k * i + k <= zlen l -> run k i l = map (fun c => znth 0%Qc (i * k + c) l) (range 0 k).
Proof.
  intros Hi Hk H. unfold run. assert (Hki : 0 <= k * i) by nia.
  apply (znth_ext 0%Qc).
  - rewrite zlen_map, zlen_range, zlen_ztake, zlen_zdrop; lia.
  - intros c Hc. rewrite zlen_ztake, zlen_zdrop in Hc by lia. rewrite znth_range_map by lia. rewrite znth_ztake by lia. rewrite znth_zdrop by lia. f_equal. lia.
Qed.
Lemma div_total (l : list Qc) (c : Qc) : total (map (fun x => (x / c)%Qc) l) = (total l / c)%Qc.
Proof. induction l as [|x l IH]; cbn [map total]; [unfold Qcdiv; ring|]. rewrite IH. unfold Qcdiv. ring. Qed.
Lemma downsample_ok (vector : list Qc) (factor : Z) (rescale : bool) : 0 < factor ->
  downsample vector factor rescale = Ok (map (fun i => (total (run factor i vector) / (if rescale then num factor else 1))%Qc) (upto 0 (zlen vector / factor))).
Proof.
  intro Hf. unfold downsample. destruct (Z.eqb_spec factor 0); [lia|]. rewrite upto_range.
  pose proof (zlen_nonneg vector) as HV. pose proof (Z.div_mod (zlen vector) factor ltac:(lia)) as DM. pose proof (Z.mod_pos_bound (zlen vector) factor Hf) as MB.
  assert (D0 : 0 <= zlen vector / factor) by (apply Z.div_pos; lia).
  set (v := if zlen vector mod factor =? 0 then vector else ztake (zlen vector / factor * factor) vector).
  assert (LV : zlen v = zlen vector / factor * factor).
  { unfold v. destruct (Z.eqb_spec (zlen vector mod factor) 0); [nia|]. rewrite zlen_ztake by nia. nia. }
  assert (AT : forall c, 0 <= c < zlen vector / factor * factor -> znth 0%Qc c v = znth 0%Qc c vector).
  { intros c Hc. unfold v. destruct (Z.eqb_spec (zlen vector mod factor) 0); [reflexivity|]. apply znth_ztake. lia. }
  cbv zeta. rewrite LV. rewrite Z.div_mul by lia. f_equal. rewrite map_map. apply range_ext. intros i Hi.
  assert (B : i * factor + factor <= zlen vector / factor * factor) by nia.
  rewrite run_range by nia. rewrite asum_total.
  assert (E : map (fun c => znth 0%Qc (i * factor + c) v) (range 0 factor) = map (fun c => znth 0%Qc (i * factor + c) vector) (range 0 factor)).
  { apply range_ext. intros c Hc. apply AT. nia. }
  rewrite E. destruct rescale; [|unfold Qcdiv; change (/ 1)%Qc with 1%Qc; ring]. rewrite div_total. reflexivity.
Qed.

(** ** Linear interpolation *)
Lemma qle_bool_iff (a b : Qc) : Qle_bool a b = true <-> (a <= b)%Qc.
Proof. unfold Qcle. apply Qle_bool_iff. Qed.
Lemma qle_bool_false (a b : Qc) : Qle_bool a b = false <-> (b < a)%Qc.
Proof. split; intro H. - apply Qcnot_le_lt. intro G. apply qle_bool_iff in G. congruence.
  - destruct (Qle_bool a b) eqn:E; [|reflexivity]. apply qle_bool_iff in E. exfalso. apply (Qclt_not_le _ _ H E). Qed.
Lemma at_cons_0 a (l : list Qc) : at_ (a :: l) 0 = a. Proof. reflexivity. Qed.
Lemma at_cons_S a (l : list Qc) i : 0 <= i -> at_ (a :: l) (i + 1) = at_ l i.
Proof. intro H. unfold at_, znth. destruct (Z.ltb_spec (i + 1) 0); [lia|]. destruct (Z.ltb_spec i 0); [lia|]. replace (Z.to_nat (i + 1)) with (S (Z.to_nat i)) by lia. reflexivity. Qed.
Lemma increasing_tl a l : increasing (a :: l) -> increasing l.
Proof. intros H i j Hi Hj. rewrite <- (at_cons_S a l i), <- (at_cons_S a l j) by lia. apply H; [lia|]. rewrite zlen_cons. lia. Qed.
Lemma joined_tl a b x y v r : joined x y v r -> joined (a :: x) (b :: y) v r.
Proof.
  intros [(k & K & E & R)|(k & K & L & U & R)]; [left|right]; exists (k + 1); rewrite zlen_cons; (split; [lia|]); rewrite ?at_cons_S by lia; auto.
Qed.
Lemma interp_joined : forall x y v, increasing x -> zlen x = zlen y -> x <> [] -> (at_ x 0 <= v)%Qc -> (v <= at_ x (zlen x - 1))%Qc -> joined x y v (interp_from x y v).
Proof.
  induction x as [|x0 xs IH]; intros y v HI HL HN H0 H1; [congruence|]. destruct y as [|y0 ys]; [rewrite zlen_cons, zlen_nil in HL; pose proof (zlen_nonneg xs); lia|].
  destruct xs as [|x1 xs].
  - cbn [interp_from]. left. exists 0. split; [cbn; lia|]. cbn in H0, H1. split; [|reflexivity]. apply Qcle_antisym; auto.
  - destruct ys as [|y1 ys]; [rewrite !zlen_cons, zlen_nil in HL; pose proof (zlen_nonneg xs); lia|].
    change (interp_from (x0 :: x1 :: xs) (y0 :: y1 :: ys) v) with (if Qle_bool x1 v then interp_from (x1 :: xs) (y1 :: ys) v else ((y1 - y0) / (x1 - x0) * (v - x0) + y0)%Qc).
    destruct (Qle_bool x1 v) eqn:E.
    + apply qle_bool_iff in E. apply joined_tl. apply IH; [eapply increasing_tl; eauto|rewrite !zlen_cons in *; lia|discriminate|exact E|].
      rewrite <- (at_cons_S x0) by (rewrite zlen_cons; pose proof (zlen_nonneg xs); lia). replace (zlen (x1 :: xs) - 1 + 1) with (zlen (x0 :: x1 :: xs) - 1) by (rewrite !zlen_cons; lia). exact H1.
    + apply qle_bool_false in E. cbn in H0. pose proof (HI 0 1 ltac:(lia) ltac:(rewrite !zlen_cons; pose proof (zlen_nonneg xs); lia)) as LT. cbn in LT. change (at_ (x0 :: x1 :: xs) 0) with x0 in H0.
      assert (NZ : (x1 - x0)%Qc <> 0%Qc). { intro Z0. apply (Qclt_not_eq x0 x1 LT). transitivity (x1 - (x1 - x0))%Qc; [ring|]. rewrite Z0. ring. }
      destruct (Qc_eq_dec v x0) as [->|NE].
      * left. exists 0. split; [rewrite !zlen_cons; pose proof (zlen_nonneg xs); lia|]. split; [reflexivity|]. rewrite at_cons_0. ring.
      * right. exists 0. split; [rewrite !zlen_cons; pose proof (zlen_nonneg xs); lia|]. rewrite !at_cons_S, !at_cons_0 by lia. split; [|split; [exact E|field; exact NZ]].
        destruct (Qcle_lt_or_eq _ _ H0) as [L|L]; [exact L|congruence].
Qed.
Lemma joined_node x y k r : increasing x -> 0 <= k < zlen x -> joined x y (at_ x k) r -> r = at_ y k.
Proof.
  intros HI HK [(i & I & E & R)|(i & I & L & U & R)].
  - destruct (Z.lt_trichotomy i k) as [C|[C|C]]; [|subst i; exact R|].
    + pose proof (HI i k ltac:(lia) ltac:(lia)) as X. rewrite E in X. exfalso. apply (Qclt_not_eq _ _ X). reflexivity.
    + pose proof (HI k i ltac:(lia) ltac:(lia)) as X. rewrite E in X. exfalso. apply (Qclt_not_eq _ _ X). reflexivity.
  - exfalso. destruct (Z.le_gt_cases k i) as [C|C].
    + destruct (Z.eq_dec k i) as [->|N]; [apply (Qclt_not_eq _ _ L); reflexivity|]. pose proof (HI k i ltac:(lia) ltac:(lia)) as X. apply (Qclt_not_le _ _ X). apply Qclt_le_weak. exact L.
    + destruct (Z.eq_dec k (i + 1)) as [->|N]; [apply (Qclt_not_eq _ _ U); reflexivity|]. pose proof (HI (i + 1) k ltac:(lia) ltac:(lia)) as X. apply (Qclt_not_le _ _ X). apply Qclt_le_weak. exact U.
Qed.
Lemma joined_line x y v r a b : zlen x = zlen y -> (forall k, 0 <= k < zlen x -> at_ y k = (a + b * at_ x k)%Qc) -> joined x y v r -> r = (a + b * v)%Qc.
Proof.
  intros HL HY [(i & I & -> & ->)|(i & I & L & U & R)]; [auto|].
  rewrite (HY i), (HY (i + 1)) in R by lia. pose proof (Qclt_trans _ _ _ L U) as LT.
  assert (NZ : (at_ x (i + 1) - at_ x i)%Qc <> 0%Qc). { intro Z0. apply (Qclt_not_eq _ _ LT). transitivity (at_ x (i + 1) - (at_ x (i + 1) - at_ x i))%Qc; [ring|]. rewrite Z0. ring. }
  assert (E : ((r - (a + b * v)) * (at_ x (i + 1) - at_ x i) = 0)%Qc).
  { transitivity ((r - (a + b * at_ x i)) * (at_ x (i + 1) - at_ x i) - b * (v - at_ x i) * (at_ x (i + 1) - at_ x i))%Qc; [ring|]. rewrite R. ring. }
  destruct (Qcmult_integral _ _ E) as [Z0|Z0]; [|contradiction]. transitivity ((r - (a + b * v)) + (a + b * v))%Qc; [ring|]. rewrite Z0. ring.
Qed.
Lemma amin_spec l x : (forall y, In y (x :: l) -> (amin x l <= y)%Qc) /\ In (amin x l) (x :: l).
Proof.
  revert x. induction l as [|y l IH]; intro x; [cbn; split; [intros z [<-|[]]; apply Qcle_refl|auto]|]. cbn [amin].
  destruct (Qle_bool x y) eqn:E.
  - apply qle_bool_iff in E. destruct (IH x) as [A B]. split.
    + intros z [<-|[<-|Hz]]; [apply A; left; auto|eapply Qcle_trans; [apply A; left; auto|exact E]|apply A; right; auto].
    + destruct B as [B|B]; [left; auto|right; right; auto].
  - apply qle_bool_false in E. apply Qclt_le_weak in E. destruct (IH y) as [A B]. split.
    + intros z [<-|[<-|Hz]]; [eapply Qcle_trans; [apply A; left; auto|exact E]|apply A; left; auto|apply A; right; auto].
    + right. exact B.
Qed.
Lemma amax_spec l x : (forall y, In y (x :: l) -> (y <= amax x l)%Qc) /\ In (amax x l) (x :: l).
Proof.
  revert x. induction l as [|y l IH]; intro x; [cbn; split; [intros z [<-|[]]; apply Qcle_refl|auto]|]. cbn [amax].
  destruct (Qle_bool y x) eqn:E.
  - apply qle_bool_iff in E. destruct (IH x) as [A B]. split.
    + intros z [<-|[<-|Hz]]; [apply A; left; auto|eapply Qcle_trans; [exact E|apply A; left; auto]|apply A; right; auto].
    + destruct B as [B|B]; [left; auto|right; right; auto].
  - apply qle_bool_false in E. apply Qclt_le_weak in E. destruct (IH y) as [A B]. split.
    + intros z [<-|[<-|Hz]]; [eapply Qcle_trans; [exact E|apply A; left; auto]|apply A; left; auto|apply A; right; auto].
    + right. exact B.
Qed.
Lemma increasing_le x i j : increasing x -> 0 <= i <= j -> j < zlen x -> (at_ x i <= at_ x j)%Qc.
Proof. intros H HI HJ. destruct (Z.eq_dec i j) as [->|N]; [apply Qcle_refl|apply Qclt_le_weak; apply H; lia]. Qed.
Lemma in_at (x : list Qc) v : In v x -> exists i, 0 <= i < zlen x /\ v = at_ x i.
Proof.
  intro H. apply (In_nth _ _ 0%Qc) in H. destruct H as (n & N & E). exists (Z.of_nat n). unfold zlen. split; [lia|]. unfold at_, znth. destruct (Z.ltb_spec (Z.of_nat n) 0); [lia|]. rewrite Nat2Z.id. auto.
Qed.
Lemma at_in (x : list Qc) i : 0 <= i < zlen x -> In (at_ x i) x.
Proof. apply znth_In. Qed.
Lemma increasing_min x0 x : increasing (x0 :: x) -> amin x0 x = at_ (x0 :: x) 0.
Proof.
  intro H. destruct (amin_spec x x0) as [A B]. apply Qcle_antisym; [apply A; left; reflexivity|]. apply in_at in B. destruct B as (i & I & ->). apply increasing_le; auto; lia.
Qed.
Lemma increasing_max x0 x : increasing (x0 :: x) -> amax x0 x = at_ (x0 :: x) (zlen (x0 :: x) - 1).
Proof.
  intro H. destruct (amax_spec x x0) as [A B]. apply Qcle_antisym.
  - apply in_at in B. destruct B as (i & I & ->). apply increasing_le; auto; lia.
  - apply A. apply at_in. rewrite zlen_cons. pose proof (zlen_nonneg x). lia.
Qed.
(** all requested points inside of the range: the values; else ValueError *)
Lemma regrid_ok x y newx : increasing x -> zlen x = zlen y -> x <> [] -> newx <> [] ->
  (forall v, In v newx -> (at_ x 0 <= v)%Qc /\ (v <= at_ x (zlen x - 1))%Qc) ->
  exists r, regrid_linear x y newx = Ok r /\ Forall2 (joined x y) newx r.
Proof.
  intros HI HL HX HN HV. exists (map (interp_from x y) newx). split.
  - destruct x as [|x0 x]; [congruence|]. destruct newx as [|n0 newx]; [congruence|]. unfold regrid_linear, array_min, array_max. cbn [bind].
    destruct (amin_spec newx n0) as [_ IM]. destruct (amax_spec newx n0) as [_ XM]. rewrite (increasing_min x0 x), (increasing_max x0 x) by auto.
    destruct (HV _ IM) as [A _]. destruct (HV _ XM) as [_ B]. apply qle_bool_iff in A, B. rewrite A, B. cbn [negb]. rewrite HL, Z.eqb_refl. reflexivity.
  - clear HN. induction newx as [|v newx IH]; [constructor|]. cbn [map]. constructor; [|apply IH; intros; apply HV; right; auto].
    destruct (HV v (or_introl eq_refl)). apply interp_joined; auto.
Qed.
Lemma regrid_outside x y newx v : increasing x -> x <> [] -> In v newx -> (v < at_ x 0)%Qc \/ (at_ x (zlen x - 1) < v)%Qc -> regrid_linear x y newx = Raise ValueError.
Proof.
  intros HI HX HV HO. destruct x as [|x0 x]; [congruence|]. destruct newx as [|n0 newx]; [contradiction|]. unfold regrid_linear, array_min, array_max. cbn [bind].
  rewrite (increasing_min x0 x), (increasing_max x0 x) by auto. destruct (Qle_bool (at_ (x0 :: x) 0) (amin n0 newx)) eqn:E; [|reflexivity]. cbn [negb]. apply qle_bool_iff in E.
  destruct (Qle_bool (amax n0 newx) (at_ (x0 :: x) (zlen (x0 :: x) - 1))) eqn:E2; [|reflexivity]. apply qle_bool_iff in E2. exfalso.
  destruct (amin_spec newx n0) as [A _]. destruct (amax_spec newx n0) as [B _]. destruct HO as [H|H]; apply (Qclt_not_le _ _ H).
  - eapply Qcle_trans; [exact E|apply A; auto].
  - eapply Qcle_trans; [apply B; auto|exact E2].
Qed.
