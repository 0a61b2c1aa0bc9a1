(** Smoothing. *)
From Coq Require Import String List ZArith Lia QArith Qcanon Bool.
From Verif Require Import LibList M_Py M_Base M_Math S_Corr S_Math P_Base P_Corr P_Beam P_CorrFX P_CorrPsd P_Math.
Import ListNotations.
Open Scope Z_scope.

Definition known : list string := ["flat"; "hanning"; "hamming"; "bartlett"; "blackman"]%string.
Lemma known_in window : In window known <-> existsb (String.eqb window) known = true.
Proof.
  rewrite existsb_exists. split.
  - intro H. exists window. split; [exact H|apply String.eqb_refl].
  - intros (x & H & E). apply String.eqb_eq in E. subst. exact H.
Qed.

Section Ends.
Context (x : list Qc) (wl : Z) (H3 : 3 <= wl) (HN : wl < zlen x).
Definition stretched : list Qc :=
  map (fun v => (qint 2 * at_ x 0 - v)%Qc) (down_to_2 x wl) ++ x ++ map (fun v => (qint 2 * at_ x (zlen x - 1) - v)%Qc) (from_end x wl).
Lemma prefix_len : zlen (map (fun v => (qint 2 * at_ x 0 - v)%Qc) (down_to_2 x wl)) = wl - 1.
Proof. unfold down_to_2. cbv zeta. rewrite !zlen_map, zlen_range. lia. Qed.
Lemma suffix_len : zlen (map (fun v => (qint 2 * at_ x (zlen x - 1) - v)%Qc) (from_end x wl)) = wl - 1.
Proof. unfold from_end. rewrite !zlen_map, zlen_range. lia. Qed.
Lemma stretched_len : zlen stretched = zlen x + 2 * (wl - 1).
Proof. unfold stretched. rewrite !zlen_app, prefix_len, suffix_len. lia. Qed.
Lemma stretched_at m : 0 <= m < zlen x + 2 * (wl - 1) -> znth 0%Qc m stretched = reflected x (m - (wl - 1)).
Proof.
  intro Hm. unfold stretched, reflected. destruct (Z.ltb_spec (m - (wl - 1)) 0) as [A|A].
  - rewrite znth_app_l by (rewrite prefix_len; lia). unfold down_to_2. cbv zeta. rewrite map_map. rewrite znth_range_map by lia. unfold at_. change (num 2) with (qint 2). replace (1 - (m - (wl - 1))) with (Z.min wl (zlen x - 1) - m) by lia. reflexivity.
  - rewrite znth_app_r by (rewrite prefix_len; lia). rewrite prefix_len. destruct (Z.ltb_spec (m - (wl - 1)) (zlen x)) as [B|B].
    + rewrite znth_app_l by lia. reflexivity.
    + rewrite znth_app_r by lia. unfold from_end. rewrite map_map. rewrite znth_range_map by lia. unfold at_. change (num 2) with (qint 2). replace (2 * zlen x - 1 - (m - (wl - 1))) with (zlen x - 1 - (m - (wl - 1) - zlen x)) by lia. reflexivity.
Qed.
End Ends.

Lemma ztake_map_range {A} (f : Z -> A) a n m : 0 <= a -> 0 <= n -> a + n <= m -> ztake n (zdrop a (map f (range 0 m))) = map (fun i => f (i + a)) (range 0 n).
Proof.
  intros Ha Hn Hm. rewrite range_map_shift, Z.add_0_l.
  rewrite (range_app 0 a m), (range_app a (n + a) m) by lia. rewrite !map_app.
  rewrite zdrop_app_ge by (rewrite zlen_map, zlen_range; lia). rewrite zlen_map, zlen_range. rewrite zdrop_0 by lia.
  rewrite ztake_app_le by (rewrite zlen_map, zlen_range; lia). apply ztake_all. rewrite zlen_map, zlen_range. lia.
Qed.
Lemma smooth_ok windows x wl window : 3 <= wl < zlen x -> In window known -> zlen (weights windows window wl) = wl ->
  smooth windows x wl window = Ok (map (weighted_mean (weights windows window wl) (reflected x)) (upto 0 (zlen x))).
Proof.
  intros HW HK HL. unfold smooth. destruct (Z.ltb_spec (zlen x) wl); [lia|]. destruct (Z.ltb_spec wl 3); [lia|].
  apply known_in in HK. fold known. rewrite HK. cbn [negb]. cbv zeta. change (znth 0%Qc 0 x) with (at_ x 0). change (znth 0%Qc (zlen x - 1) x) with (at_ x (zlen x - 1)).
  fold (stretched x wl). fold (weights windows window wl). set (w := weights windows window wl) in *. clearbody w. f_equal. unfold convolve_same.
  rewrite !zlen_map, zlen_range, stretched_len by lia. replace (Z.max 0 (zlen x + 2 * (wl - 1) - 0) - 2 * (wl - 1)) with (zlen x) by lia.
  rewrite ztake_map_range by lia. rewrite upto_range. apply range_ext. intros i Hi. unfold full_conv, weighted_mean. rewrite !zlen_map, HL, upto_range, !asum_total.
  rewrite <- div_total, map_map. f_equal. apply range_ext. intros j Hj. rewrite stretched_len by lia.
  assert (B : (0 <=? i + (wl - 1) + (wl - 1) / 2 - j) && (i + (wl - 1) + (wl - 1) / 2 - j <? zlen x + 2 * (wl - 1)) = true).
  { pose proof (Z.div_pos (wl - 1) 2 ltac:(lia) ltac:(lia)). assert ((wl - 1) / 2 <= wl - 1 - 1) by (apply Z.div_le_upper_bound; lia). apply andb_true_intro. split; [apply Z.leb_le; lia|apply Z.ltb_lt; lia]. }
  rewrite B. rewrite stretched_at; [|lia|lia|apply andb_prop in B; destruct B as [B1 B2]; apply Z.leb_le in B1; apply Z.ltb_lt in B2; lia].
  replace (i + (wl - 1) + (wl - 1) / 2 - j - (wl - 1)) with (i + (wl - 1) / 2 - j) by lia.
  rewrite (znth_map _ _ (fun v => (v / total w)%Qc) 0%Qc) by lia. unfold at_. unfold Qcdiv. ring.
Qed.
Lemma total_map_ext {A} (f g : A -> Qc) l : (forall a, In a l -> f a = g a) -> total (map f l) = total (map g l).
Proof. intro H. f_equal. apply map_ext_in. exact H. Qed.
Lemma total_scale {A} (f : A -> Qc) c l : total (map (fun a => (f a * c)%Qc) l) = (total (map f l) * c)%Qc.
Proof. induction l as [|a l IH]; cbn [map total]; [ring|]. rewrite IH. ring. Qed.
Lemma total_add {A} (f g : A -> Qc) l : total (map (fun a => (f a + g a)%Qc) l) = (total (map f l) + total (map g l))%Qc.
Proof. induction l as [|a l IH]; cbn [map total]; [ring|]. rewrite IH. ring. Qed.
Lemma total_self (w : list Qc) : total (map (fun j => at_ w j) (upto 0 (zlen w))) = total w.
Proof. rewrite upto_range. unfold at_. rewrite znth_self. reflexivity. Qed.
(** Where the window does not reach the ends the signal itself is averaged. *)
Lemma reflected_in x i : 0 <= i < zlen x -> reflected x i = at_ x i.
Proof. intro H. unfold reflected. destruct (Z.ltb_spec i 0); [lia|]. destruct (Z.ltb_spec i (zlen x)); [reflexivity|lia]. Qed.
Lemma mean_ext w v v' i : (forall j, 0 <= j < zlen w -> v (i + (zlen w - 1) / 2 - j) = v' (i + (zlen w - 1) / 2 - j)) -> weighted_mean w v i = weighted_mean w v' i.
Proof. intro H. unfold weighted_mean. f_equal. rewrite upto_range. apply total_map_ext. intros j Hj. apply range_in in Hj. rewrite H by auto. reflexivity. Qed.
Lemma mean_constant w c i : total w <> 0%Qc -> weighted_mean w (fun _ => c) i = c.
Proof. intro H. unfold weighted_mean. rewrite (total_scale (fun j => at_ w j)), total_self. field. exact H. Qed.
Lemma mean_linear w u v a b i : weighted_mean w (fun j => (a * u j + b * v j)%Qc) i = (a * weighted_mean w u i + b * weighted_mean w v i)%Qc.
Proof.
  unfold weighted_mean. rewrite (total_map_ext _ (fun j => (at_ w j * u (i + (zlen w - 1) / 2 - j)%Z * a + at_ w j * v (i + (zlen w - 1) / 2 - j)%Z * b)%Qc)).
  - rewrite total_add, !total_scale. unfold Qcdiv. ring.
  - intros j _. ring.
Qed.
Lemma reflected_constant x c i : (forall k, 0 <= k < zlen x -> at_ x k = c) -> - zlen x + 1 < i < 2 * zlen x -> reflected x i = c.
Proof.
  intros H Hi. unfold reflected. destruct (Z.ltb_spec i 0); [rewrite !H by lia; change (num 2) with (1 + 1)%Qc; ring|]. destruct (Z.ltb_spec i (zlen x)); [apply H; lia|].
  rewrite !H by lia. change (num 2) with (1 + 1)%Qc. ring.
Qed.
(** A window that is the same from both sides, of odd length, keeps a straight line. *)
Definition mirrored (w : list Qc) : Prop := forall j, 0 <= j < zlen w -> at_ w j = at_ w (zlen w - 1 - j).
Lemma total_rev l : total (rev l) = total l.
Proof. induction l as [|x l IH]; [reflexivity|]. cbn [rev total]. rewrite total_app. cbn [total]. rewrite IH. ring. Qed.
Lemma range_rev n : 0 <= n -> rev (range 0 n) = map (fun j => n - 1 - j) (range 0 n).
Proof.
  intro H. apply (znth_ext 0).
  - rewrite zlen_rev, zlen_map. reflexivity.
  - intros i Hi. rewrite zlen_rev, zlen_range in Hi. rewrite znth_range_map by lia. unfold znth. destruct (Z.ltb_spec i 0); [lia|].
    rewrite rev_nth by (pose proof (zlen_range 0 n) as L; unfold zlen in L; lia). pose proof (zlen_range 0 n) as L. unfold zlen in L.
    assert (Q : forall k, 0 <= k < n -> nth (Z.to_nat k) (range 0 n) 0 = k).
    { intros k Hk. pose proof (znth_range_map 0 (fun z => z) n k Hk) as Z0. rewrite map_id in Z0. unfold znth in Z0. destruct (Z.ltb_spec k 0); [lia|exact Z0]. }
    rewrite <- (Q (n - 1 - i)) at 1 by lia. f_equal. lia.
Qed.
Lemma mirrored_moment w : mirrored w -> Z.odd (zlen w) = true -> total (map (fun j => (at_ w j * num ((zlen w - 1) / 2 - j))%Qc) (upto 0 (zlen w))) = 0%Qc.
Proof.
  intros HM HO. pose proof (zlen_nonneg w) as H0. rewrite upto_range. set (f := fun j => (at_ w j * num ((zlen w - 1) / 2 - j))%Qc).
  assert (E : total (map f (range 0 (zlen w))) = (- total (map f (range 0 (zlen w))))%Qc).
  { rewrite <- (total_rev (map f _)) at 1. rewrite <- map_rev, range_rev, map_map by lia.
    transitivity (total (map (fun j => (f j * (- (1)))%Qc) (range 0 (zlen w)))); [|rewrite total_scale; ring].
    apply total_map_ext. intros j Hj. apply range_in in Hj. unfold f. rewrite <- (HM j) by lia. apply Z.odd_spec in HO. destruct HO as [k K].
    assert (D : (zlen w - 1) / 2 = k). { symmetry. apply (Z.div_unique_pos _ _ _ 0); lia. } rewrite D. rewrite <- Qcmult_assoc. f_equal.
    replace (k - (zlen w - 1 - j)) with (- (k - j)) by lia. assert (N : forall z, num (- z) = (- num z)%Qc).
    { intro z. assert (X : (num (- z) + num z = 0)%Qc) by (rewrite <- num_plus; replace (- z + z) with 0 by lia; reflexivity). transitivity ((num (- z) + num z) - num z)%Qc; [ring|]. rewrite X. ring. }
    rewrite N. ring. }
  generalize dependent (total (map f (range 0 (zlen w)))). intros t E. assert (D : ((1 + 1) * t = 0)%Qc) by (transitivity (t + t)%Qc; [ring|]; rewrite E at 1; ring).
  destruct (Qcmult_integral _ _ D) as [A|A]; [discriminate A|exact A].
Qed.
Lemma mean_line w a b i : total w <> 0%Qc -> mirrored w -> Z.odd (zlen w) = true -> weighted_mean w (fun j => (a + b * num j)%Qc) i = (a + b * num i)%Qc.
Proof.
  intros HT HM HO. pose proof (mirrored_moment w HM HO) as MM. unfold weighted_mean.
  rewrite (total_map_ext _ (fun j => (at_ w j * (a + b * num i) + at_ w j * num ((zlen w - 1) / 2 - j) * b)%Qc)).
  - rewrite total_add, (total_scale (fun j => at_ w j)), (total_scale (fun j => (at_ w j * num ((zlen w - 1) / 2 - j))%Qc)), total_self, MM. field. exact HT.
  - intros j _. replace (i + (zlen w - 1) / 2 - j) with (i + ((zlen w - 1) / 2 - j)) by lia. rewrite num_plus. ring.
Qed.
