(** Selecting signals by polarization, and Stokes inequality. *)
From Coq Require Import List ZArith QArith Qcanon Bool Lia Permutation.
From Verif Require Import LibList M_Py M_Base P_Base M_Corr M_CorrPy S_Corr P_Corr P_CorrSpec P_CorrPsd.
Import ListNotations.
Open Scope Z_scope.

Lemma index_positions : forall p ants, index_of_pol p ants = positions (fun a => a_pol a =? p) ants.
Proof. intros. unfold index_of_pol, positions. rewrite upto_range. reflexivity. Qed.

Lemma positions_gen : forall A (d : A) (p : A -> bool) (l : list A) lo,
  let ps := map fst (filter (fun q => p (snd q)) (combine (range lo (lo + zlen l)) l)) in
  map (fun i => znth d (i - lo) l) ps = filter p l /\ forall i, In i ps -> lo <= i < lo + zlen l.
Proof.
  intros A d p l. induction l as [|x l IH]; intros lo; cbv zeta.
  - rewrite zlen_nil, range_nil by lia. split; [reflexivity|intros i []].
  - rewrite zlen_cons. pose proof (zlen_nonneg l). rewrite range_cons by lia. cbn [combine filter snd].
    specialize (IH (lo + 1)). cbv zeta in IH. replace (lo + 1 + zlen l) with (lo + (1 + zlen l)) in IH by lia. destruct IH as [IH1 IH2].
    assert (E : map (fun i => znth d (i - lo) (x :: l)) (map fst (filter (fun q => p (snd q)) (combine (range (lo + 1) (lo + (1 + zlen l))) l))) = filter p l).
    { rewrite <- IH1. apply map_ext_in. intros i Hi. apply IH2 in Hi. change (x :: l) with ([x] ++ l). rewrite znth_app_r by (unfold zlen; cbn; lia).
      f_equal. unfold zlen. cbn. lia. }
    split.
    + destruct (p x); cbn [map fst]; [|exact E]. f_equal; [|exact E]. rewrite Z.sub_diag. reflexivity.
    + intros i Hi. destruct (p x); cbn [map fst] in Hi; [destruct Hi as [<- | Hi]; [lia|]|]; apply IH2 in Hi; lia.
Qed.
Lemma positions_pick : forall A (d : A) (p : A -> bool) (l : list A), map (fun i => znth d i l) (positions p l) = filter p l.
Proof.
  intros A d p l. unfold positions. rewrite upto_range. destruct (positions_gen A d p l 0) as [H _]. cbv zeta in H. rewrite Z.add_0_l in H. rewrite <- H.
  apply map_ext. intro i. f_equal. lia.
Qed.
Lemma positions_in : forall A (p : A -> bool) (l : list A) i, In i (positions p l) -> 0 <= i < zlen l.
Proof.
  intros A p l i Hi. unfold positions in Hi. rewrite upto_range in Hi. destruct l as [|a l]; [destruct Hi|].
  destruct (positions_gen A a p (a :: l) 0) as [_ H]. cbv zeta in H. rewrite Z.add_0_l in H. apply H in Hi. exact Hi.
Qed.
Lemma positions_len : forall A (p : A -> bool) (l : list A), zlen (positions p l) = zlen (filter p l).
Proof.
  intros A p l. destruct l as [|a l]; [reflexivity|]. rewrite <- (positions_pick A a p (a :: l)). symmetry. apply zlen_map.
Qed.

Lemma py_index_ok : forall A (d : A) l i x, 0 <= i -> py_index l i = Ok x -> i < zlen l /\ x = znth d i l.
Proof.
  intros A d l i x Hi H. unfold py_index in H. destruct (Z.ltb_spec i 0); [lia|].
  destruct (nth_error l (Z.to_nat i)) as [y|] eqn:E; [|discriminate]. destruct (Z.ltb_spec i 0); [lia|]. inversion H; subst.
  assert (Hl : (Z.to_nat i < length l)%nat) by (apply nth_error_Some; congruence).
  split; [unfold zlen; lia|]. unfold znth. destruct (Z.ltb_spec i 0); [lia|]. symmetry. apply nth_error_nth. exact E.
Qed.
Lemma py_index_in : forall A (d : A) l i, 0 <= i < zlen l -> py_index l i = Ok (znth d i l).
Proof.
  intros A d l i Hi. unfold py_index. destruct (Z.ltb_spec i 0); [lia|]. unfold znth. destruct (Z.ltb_spec i 0); [lia|].
  rewrite (nth_error_nth' l d) by (unfold zlen in Hi; lia). reflexivity.
Qed.
Lemma take_rows_ok : forall A (d : A) signals idx r, (forall i, In i idx -> 0 <= i) -> take_rows signals idx = Ok r ->
  r = map (fun i => znth d i signals) idx /\ forall i, In i idx -> i < zlen signals.
Proof.
  intros A d signals idx. unfold take_rows. induction idx as [|j idx IH]; intros r Hp H.
  - cbn in H. inversion H. split; [reflexivity|intros i []].
  - cbn [map collect] in H. destruct (py_index signals j) as [x|] eqn:E; [|discriminate]. cbn [bind] in H.
    destruct (collect (map (py_index signals) idx)) as [y|]; [|discriminate]. cbn [bind] in H. inversion H; subst.
    apply (py_index_ok A d) in E; [|apply Hp; left; reflexivity]. destruct E as [E1 E2]. subst x.
    destruct (IH y) as [IH1 IH2]; [intros i Hi; apply Hp; right; exact Hi|reflexivity|]. subst y. split; [reflexivity|].
    intros i [<- | Hi]; [exact E1|apply IH2; exact Hi].
Qed.
Lemma take_rows_in : forall A (d : A) signals idx, (forall i, In i idx -> 0 <= i < zlen signals) ->
  take_rows signals idx = Ok (map (fun i => znth d i signals) idx).
Proof.
  intros A d signals idx. unfold take_rows. induction idx as [|j idx IH]; intro Hp; [reflexivity|].
  cbn [map collect]. rewrite (py_index_in A d) by (apply Hp; left; reflexivity). cbn [bind]. rewrite IH by (intros i Hi; apply Hp; right; exact Hi). reflexivity.
Qed.

(** ** I^2 >= Q^2 + U^2 + V^2 *)
Section Cauchy.
Context {A : Type} (x y : A -> complex).
Definition sxx (l : list A) := total (map (fun j => power (x j)) l).
Definition syy (l : list A) := total (map (fun j => power (y j)) l).
Definition sre (l : list A) := total (map (fun j => fst (times_conj (x j) (y j))) l).
Definition sim (l : list A) := total (map (fun j => snd (times_conj (x j) (y j))) l).
Lemma Qc_sq_nonneg : forall a : Qc, (0 <= a * a)%Qc.
Proof.
  intro a. destruct (Qclt_le_dec a 0) as [H|H].
  - assert (E : (a * a = (- a) * (- a))%Qc) by ring. rewrite E. assert (Hn : (0 <= - a)%Qc).
    { apply Qclt_le_weak in H. apply Qcopp_le_compat in H. replace (- 0)%Qc with 0%Qc in H by ring. exact H. }
    replace 0%Qc with (0 * - a)%Qc by ring. apply Qcmult_le_compat_r; assumption.
  - replace 0%Qc with (0 * a)%Qc by ring. apply Qcmult_le_compat_r; assumption.
Qed.
Lemma Qc_plus_nonneg : forall a b : Qc, (0 <= a -> 0 <= b -> 0 <= a + b)%Qc.
Proof. intros a b Ha Hb. replace 0%Qc with (0 + 0)%Qc by ring. apply Qcplus_le_compat; assumption. Qed.
Lemma power_nonneg : forall z, (0 <= power z)%Qc.
Proof. intros [a b]. unfold power. apply Qc_plus_nonneg; apply Qc_sq_nonneg. Qed.
Lemma total_nonneg : forall l, (forall v, In v l -> 0 <= v)%Qc -> (0 <= total l)%Qc.
Proof.
  induction l as [|v l IH]; intro H; [apply Qcle_refl|]. cbn [total]. apply Qc_plus_nonneg; [apply H; left; reflexivity|]. apply IH. intros; apply H; right; assumption.
Qed.
Lemma sxx_nonneg : forall l, (0 <= sxx l)%Qc.
Proof. intro l. apply total_nonneg. intros v Hv. apply in_map_iff in Hv. destruct Hv as (j & <- & _). apply power_nonneg. Qed.
Lemma syy_nonneg : forall l, (0 <= syy l)%Qc.
Proof. intro l. apply total_nonneg. intros v Hv. apply in_map_iff in Hv. destruct Hv as (j & <- & _). apply power_nonneg. Qed.
(** Sum of |a y - (c - i d) x|^2 *)
Lemma expand : forall a c d l,
  total (map (fun j => power ((a * fst (y j) - (c * fst (x j) + d * snd (x j)))%Qc, (a * snd (y j) - (c * snd (x j) - d * fst (x j)))%Qc)) l) =
  (a * a * syy l - (a + a) * (c * sre l + d * sim l) + (c * c + d * d) * sxx l)%Qc.
Proof.
  intros a c d. induction l as [|j l IH]; [unfold syy, sre, sim, sxx; cbn; ring|].
  unfold syy, sre, sim, sxx in *. cbn [map total]. rewrite IH. destruct (x j) as [xa xb], (y j) as [ya yb]. unfold power, times_conj. cbn [fst snd]. ring.
Qed.
Lemma zero_terms : forall l, sxx l = 0%Qc -> sre l = 0%Qc /\ sim l = 0%Qc.
Proof.
  induction l as [|j l IH]; intro H; [split; reflexivity|]. unfold sxx in H. cbn [map total] in H. fold (sxx l) in H.
  assert (Hp := power_nonneg (x j)). assert (Hs := sxx_nonneg l).
  assert (E1 : power (x j) = 0%Qc).
  { apply Qcle_antisym; [|exact Hp]. rewrite <- H. replace (power (x j)) with (power (x j) + 0)%Qc at 1 by ring. apply Qcplus_le_compat; [apply Qcle_refl|exact Hs]. }
  assert (E2 : sxx l = 0%Qc) by (rewrite E1 in H; rewrite <- H; ring).
  destruct (IH E2) as [IH1 IH2]. unfold sre, sim. cbn [map total]. fold (sre l) (sim l). rewrite IH1, IH2.
  assert (Z : fst (x j) = 0%Qc /\ snd (x j) = 0%Qc).
  { destruct (x j) as [a b]. unfold power in E1. cbn [fst snd]. assert (Ha := Qc_sq_nonneg a). assert (Hb := Qc_sq_nonneg b).
    assert (A0 : (a * a = 0)%Qc) by (apply Qcle_antisym; [rewrite <- E1; replace (a * a)%Qc with (a * a + 0)%Qc at 1 by ring; apply Qcplus_le_compat; [apply Qcle_refl|exact Hb]|exact Ha]).
    assert (B0 : (b * b = 0)%Qc) by (rewrite A0 in E1; rewrite <- E1; ring).
    split; [apply Qcmult_integral in A0; tauto|apply Qcmult_integral in B0; tauto]. }
  destruct Z as [Z1 Z2]. destruct (x j) as [a b], (y j) as [c d]. cbn [fst snd] in *. subst. unfold times_conj. cbn [fst snd]. split; ring.
Qed.
Lemma cauchy : forall l, (sre l * sre l + sim l * sim l <= sxx l * syy l)%Qc.
Proof.
  intro l. destruct (Qc_eq_dec (sxx l) 0) as [E|E].
  - destruct (zero_terms l E) as [-> ->]. rewrite E. replace (0 * 0 + 0 * 0)%Qc with 0%Qc by ring. replace (0 * syy l)%Qc with 0%Qc by ring. apply Qcle_refl.
  - assert (Hp : (0 < sxx l)%Qc).
    { destruct (Qclt_le_dec 0 (sxx l)) as [H|H]; [exact H|]. exfalso. apply E. apply Qcle_antisym; [exact H|apply sxx_nonneg]. }
    assert (G : (0 <= (sxx l * syy l - (sre l * sre l + sim l * sim l)) * sxx l)%Qc).
    { assert (H := expand (sxx l) (sre l) (sim l) l).
      assert (N : (0 <= total (map (fun j => power ((sxx l * fst (y j) - (sre l * fst (x j) + sim l * snd (x j)))%Qc, (sxx l * snd (y j) - (sre l * snd (x j) - sim l * fst (x j)))%Qc)) l))%Qc).
      { apply total_nonneg. intros v Hv. apply in_map_iff in Hv. destruct Hv as (j & <- & _). apply power_nonneg. }
      rewrite H in N. replace ((sxx l * syy l - (sre l * sre l + sim l * sim l)) * sxx l)%Qc with
        (sxx l * sxx l * syy l - (sxx l + sxx l) * (sre l * sre l + sim l * sim l) + (sre l * sre l + sim l * sim l) * sxx l)%Qc by ring. exact N. }
    replace 0%Qc with (0 * sxx l)%Qc in G by ring. apply Qcmult_lt_0_le_reg_r in G; [|exact Hp].
    apply Qcle_minus_iff. exact G.
Qed.
Lemma total_plus : forall (f g : A -> Qc) l, total (map (fun j => f j + g j)%Qc l) = (total (map f l) + total (map g l))%Qc.
Proof. intros f g l. induction l as [|j l IH]; cbn [map total]; [ring|rewrite IH; ring]. Qed.
Lemma total_minus : forall (f g : A -> Qc) l, total (map (fun j => f j - g j)%Qc l) = (total (map f l) - total (map g l))%Qc.
Proof. intros f g l. induction l as [|j l IH]; cbn [map total]; [ring|rewrite IH; ring]. Qed.
Lemma total_scale : forall c (f : A -> Qc) l, total (map (fun j => c * f j)%Qc l) = (c * total (map f l))%Qc.
Proof. intros c f l. induction l as [|j l IH]; cbn [map total]; [ring|rewrite IH; ring]. Qed.
Lemma stokes_bound : forall l, let S p := total (map (fun j => stokes p (x j) (y j)) l) in (S 1%Z * S 1%Z + S 2%Z * S 2%Z + S 3%Z * S 3%Z <= S 0%Z * S 0%Z)%Qc.
Proof.
  intros l S.
  assert (E0 : S 0 = (sxx l + syy l)%Qc) by (unfold S, stokes; cbn [Z.eqb]; apply total_plus).
  assert (E1 : S 1 = (sxx l - syy l)%Qc) by (unfold S, stokes; cbn [Z.eqb]; apply total_minus).
  assert (E2 : S 2 = (num 2 * sre l)%Qc) by (unfold S, stokes; cbn [Z.eqb Pos.eqb]; apply total_scale).
  assert (E3 : S 3 = (num 2 * sim l)%Qc) by (unfold S, stokes; cbn [Z.eqb Pos.eqb]; apply total_scale).
  rewrite E0, E1, E2, E3. assert (T : num 2 = (1 + 1)%Qc) by (apply (num_plus 1 1)). rewrite T.
  assert (H := proj1 (Qcle_minus_iff _ _) (cauchy l)). apply (proj2 (Qcle_minus_iff _ _)).
  replace ((sxx l + syy l) * (sxx l + syy l) + - ((sxx l - syy l) * (sxx l - syy l) + (1 + 1) * sre l * ((1 + 1) * sre l) + (1 + 1) * sim l * ((1 + 1) * sim l)))%Qc
    with ((sxx l * syy l + - (sre l * sre l + sim l * sim l)) * ((1 + 1) * (1 + 1)))%Qc by ring.
  replace 0%Qc with (0 * ((1 + 1) * (1 + 1)))%Qc by ring. apply Qcmult_le_compat_r; [exact H|]. apply Qc_sq_nonneg.
Qed.
End Cauchy.
