(** XMaster: helpers *)
From Coq Require Import Ascii String List ZArith QArith Qcanon Qround Bool Lia Permutation.
From Verif Require Import LibList M_Py M_Base P_Base M_Corr M_CorrPy S_Corr P_Corr P_CorrSpec P_CorrPsd P_CorrPick P_CorrF P_CorrX P_CorrFX P_CorrAl.
Import ListNotations.
Open Scope Z_scope.

Lemma two_pols_letters : forall c1 c2 p1 p2, pol_number c1 = Some p1 -> pol_number c2 = Some p2 -> two_pols (String c1 (String c2 "")) = Ok (p1, p2).
Proof.
  intros c1 c2 p1 p2 H1 H2.
  assert (G : forall c p, pol_number c = Some p -> forall rest, pol_to_pols (String c rest) = bind (pol_to_pols rest) (fun l => Ok (p :: l))).
  { intros c p Hc rest. cbn [pol_to_pols]. destruct c as [[] [] [] [] [] [] [] []]; vm_compute in Hc; try discriminate; injection Hc as <-; reflexivity. }
  unfold two_pols. rewrite (G _ _ H1), (G _ _ H2). reflexivity.
Qed.
Lemma length_range : forall n, 0 <= n -> length (range 0 n) = Z.to_nat n.
Proof. intros n Hn. pose proof (range_len 0 n). unfold zlen in *. lia. Qed.
Lemma zlen_combine_range : forall A (l : list A), zlen (combine (range 0 (zlen l)) l) = zlen l.
Proof. intros A l. unfold zlen at 1. rewrite combine_length, length_range by apply zlen_nonneg. unfold zlen. lia. Qed.
Lemma combine_range_at : forall A (d : A) l r, 0 <= r < zlen l -> znth (0, d) r (combine (range 0 (zlen l)) l) = (r, znth d r l).
Proof.
  intros A d l r Hr. unfold znth at 1. destruct (Z.ltb_spec r 0); [lia|]. rewrite combine_nth by (rewrite length_range by apply zlen_nonneg; unfold zlen; lia).
  f_equal; [|unfold znth; destruct (Z.ltb_spec r 0); [lia|reflexivity]].
  transitivity (znth 0 r (range 0 (zlen l))); [unfold znth; destruct (Z.ltb_spec r 0); [lia|reflexivity]|]. rewrite znth_range' by lia. lia.
Qed.
Lemma in_combine_range : forall A (d : A) l q, In q (combine (range 0 (zlen l)) l) -> 0 <= fst q < zlen l /\ snd q = znth d (fst q) l.
Proof.
  intros A d l q Hq. destruct (In_nth _ _ (0, d) Hq) as (i & Hi & Ei). pose proof (zlen_combine_range _ l) as HL. unfold zlen in HL at 1.
  pose proof (combine_range_at _ d l (Z.of_nat i) ltac:(lia)) as E. unfold znth at 1 in E. destruct (Z.ltb_spec (Z.of_nat i) 0); [lia|]. rewrite Nat2Z.id in E.
  rewrite <- Ei, E. cbn [fst snd]. split; [lia|reflexivity].
Qed.
Lemma NoDup_znth : forall (l : list Z) i j, NoDup l -> 0 <= i < zlen l -> 0 <= j < zlen l -> znth 0 i l = znth 0 j l -> i = j.
Proof.
  intros l i j H Hi Hj E. unfold znth in E. destruct (Z.ltb_spec i 0); [lia|]. destruct (Z.ltb_spec j 0); [lia|].
  apply (proj1 (NoDup_nth l 0)) in E; unfold zlen in *; [lia|exact H|lia|lia].
Qed.
Lemma delay_of_stand_at : forall ants delays i (d : ant), NoDup (map a_stand ants) -> 0 <= i < zlen ants ->
  delay_of_stand ants delays (a_stand (znth d i ants)) = Ok (delays i).
Proof.
  intros ants delays i d ND Hi. unfold delay_of_stand.
  destruct (find _ _) as [q|] eqn:Ef.
  - apply find_some in Ef. destruct Ef as [Hq E]. apply Z.eqb_eq in E. apply in_rev in Hq. destruct (in_combine_range _ d _ _ Hq) as [H1 H2]. do 2 f_equal.
    apply (NoDup_znth (map a_stand ants)); [exact ND|rewrite zlen_map; exact H1|rewrite zlen_map; exact Hi|].
    rewrite !(znth_map _ _ _ d) by assumption. rewrite <- H2. exact E.
  - exfalso. assert (HI : In (i, znth d i ants) (rev (combine (range 0 (zlen ants)) ants))).
    { apply -> in_rev. rewrite <- combine_range_at by exact Hi. apply znth_In. rewrite zlen_combine_range. exact Hi. }
    apply (find_none _ _ Ef) in HI. cbn [snd] in HI. rewrite Z.eqb_refl in HI. discriminate.
Qed.
Lemma cube_at : forall nChan nTime rows s c t, 0 <= c < nChan -> 0 <= t < nTime -> 
  cube nChan nTime rows (s * nChan * nTime + c * nTime + t) = znth c0 t (znth [] c (znth [] s rows)).
Proof.
  intros nChan nTime rows s c t Hc Ht. unfold cube.
  replace (s * nChan * nTime + c * nTime + t) with ((s * nChan + c) * nTime + t) by ring.
  assert (E1 : ((s * nChan + c) * nTime + t) mod nTime = t) by (symmetry; apply (Z.mod_unique_pos _ _ (s * nChan + c)); lia).
  assert (E2 : ((s * nChan + c) * nTime + t) / nTime = s * nChan + c) by (symmetry; apply (Z.div_unique_pos _ _ _ t); lia).
  assert (E3 : ((s * nChan + c) * nTime + t) / (nChan * nTime) = s).
  { rewrite (Z.mul_comm nChan), <- Z.div_div by lia. rewrite E2. symmetry. apply (Z.div_unique_pos _ _ _ c); lia. }
  rewrite E1, E2, E3. replace ((s * nChan + c) mod nChan) with c by (apply (Z.mod_unique_pos _ _ s); lia). reflexivity.
Qed.
Lemma range_count : forall n, 0 <= n -> zlen (range 0 n) = n.
Proof. intros. rewrite range_len. lia. Qed.
Lemma x_cell : forall nChan nTime rows1 rows2 i j k, 0 <= nTime -> 0 <= k < nChan ->
  cdiv (product nChan nTime (cube nChan nTime rows1) (cube nChan nTime rows2) i j k) (act_vis nTime (fun _ => 1) (fun _ => 1) i j) =
  mean_c (map (fun t => times_conj (znth c0 t (znth [] k (znth [] i rows1))) (znth c0 t (znth [] k (znth [] j rows2)))) (range 0 nTime)).
Proof.
  intros nChan nTime rows1 rows2 i j k Ht Hk. unfold product. rewrite dotc_total.
  rewrite (act_vis_count nTime _ _ i j (fun _ => true) (fun _ => true)) by reflexivity.
  rewrite filter_all by reflexivity.
  rewrite (map_ext_in _ (fun t => times_conj (znth c0 t (znth [] k (znth [] i rows1))) (znth c0 t (znth [] k (znth [] j rows2)))) (range 0 nTime)).
  - rewrite <- cdiv_mean. rewrite zlen_map. reflexivity.
  - intros t Hti. apply range_in in Hti. rewrite !cube_at by lia. reflexivity.
Qed.
Lemma mean_times : forall z l, mean_c (map (c_times z) l) = option_map (c_times z) (mean_c l).
Proof.
  intros z l. destruct l as [|x l]; [reflexivity|]. set (h := x :: l). assert (Hh : mean_c h = Some ((fst (total_c h) / num (zlen h))%Qc, (snd (total_c h) / num (zlen h))%Qc)) by reflexivity.
  assert (Hm : mean_c (map (c_times z) h) = Some ((fst (total_c (map (c_times z) h)) / num (zlen (map (c_times z) h)))%Qc, (snd (total_c (map (c_times z) h)) / num (zlen (map (c_times z) h)))%Qc)) by reflexivity.
  rewrite Hm, Hh, total_times, zlen_map. destruct z as [a b]. destruct (total_c h) as [e f]. cbn [fst snd option_map c_times]. unfold c_times. cbn [fst snd]. apply (f_equal (@Some complex)). apply f_equal2; unfold Qcdiv; ring.
Qed.
Lemma turned_products : forall a b r1 r2, times_conj (c_times a r1) (c_times b r2) = c_times (times_conj r1 r2) (times_conj a b).
Proof. intros [a1 a2] [b1 b2] [c1 c2] [d1 d2]. unfold times_conj, c_times. f_equal; ring. Qed.
Lemma rotated_mean : forall (g : bool) (rg : Qc) (r1 r2 : C) (x y : Z -> C) l,
  times (if g then cmul (cmul (conj r2) r1) (rg, 0%Qc) else cmul (conj r2) r1) (mean_c (map (fun t => times_conj (x t) (y t)) l)) =
  option_map (fun z => if g then c_times z (rg, 0%Qc) else z) (mean_c (map (fun t => times_conj (c_times (x t) r1) (c_times (y t) r2)) l)).
Proof.
  intros g rg r1 r2 x y l. rewrite (map_ext (fun t => times_conj (c_times (x t) r1) (c_times (y t) r2)) (fun t => c_times (times_conj r1 r2) (times_conj (x t) (y t)))) by (intro; apply turned_products).
  rewrite <- (map_map (fun t => times_conj (x t) (y t)) (c_times (times_conj r1 r2))), mean_times.
  destruct (mean_c _) as [[a b]|]; [|reflexivity]. unfold times. cbn [option_map]. apply (f_equal (@Some C)). destruct r1 as [c d], r2 as [e f]. destruct g; unfold cmul, conj, c_times, times_conj; cbn [fst snd]; apply f_equal2; ring.
Qed.
