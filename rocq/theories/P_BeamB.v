(** A wave from the direction of the beam, the power of a beam, and moving the array. *)
From Coq Require Import List ZArith QArith Qcanon Bool Lia.
From Verif Require Import LibList M_Py M_Base M_Corr M_CorrPy S_Corr P_Corr P_CorrPick P_CorrFX M_Beam S_Beam P_Beam P_BeamA.
From Verif Require M_Robust P_Robust P_RobustA P_RobustF.
Import ListNotations.
Open Scope Z_scope.

Lemma total_qsum l : total l = M_Robust.qsum l. Proof. induction l as [|x l IH]; [reflexivity|]. cbn. rewrite IH. reflexivity. Qed.
Lemma total_c_parts l : total_c l = (total (map fst l), total (map snd l)).
Proof. induction l as [|z l IH]; [reflexivity|]. cbn [total_c map total]. rewrite IH. reflexivity. Qed.
Lemma num_qn {A} (l : list A) : num (zlen l) = M_Robust.qn (length l). Proof. reflexivity. Qed.
Lemma cauchy l : l <> [] -> (total l * total l <= num (zlen l) * total (map (fun x => x * x) l))%Qc.
Proof.
  intro N. assert (E := P_RobustF.cauchy_eq l N).
  assert (T : (0 <= M_Robust.qn (length l) * M_Robust.qsum (map (fun x => M_Robust.sq (x - M_Robust.qsum l / M_Robust.qn (length l))) l))%Qc).
  { apply P_RobustA.mul_nonneg; [apply P_RobustA.qn_nonneg|]. apply P_RobustF.sum_nonneg. intros. apply P_RobustA.sq_nonneg. }
  rewrite <- E in T. rewrite num_qn, !total_qsum. unfold M_Robust.sq in T.
  apply Qcle_minus_iff. exact T.
Qed.
Lemma cauchy_c l : l <> [] -> (power (total_c l) <= num (zlen l) * total (map power l))%Qc.
Proof.
  intro N. rewrite total_c_parts. unfold power at 1.
  assert (A := cauchy (map fst l) ltac:(destruct l; [congruence|discriminate])). assert (B := cauchy (map snd l) ltac:(destruct l; [congruence|discriminate])).
  rewrite !zlen_map in *. rewrite !map_map in *.
  replace (total (map power l)) with (total (map (fun x => fst x * fst x) l) + total (map (fun x => snd x * snd x) l))%Qc.
  - rewrite Qcmult_plus_distr_r. apply Qcplus_le_compat; assumption.
  - clear. induction l as [|[a b] l IH]; [reflexivity|]. cbn [map total fst snd power]. rewrite <- IH. ring.
Qed.
Lemma num_pos {A} (l : list A) : l <> [] -> (0 < num (zlen l))%Qc.
Proof. intro N. rewrite num_qn. apply P_RobustA.qn_pos. destruct l; [congruence|]. cbn [length]. lia. Qed.
Lemma power_mean l : l <> [] -> (power (mean_or_0 l) <= total (map power l) / num (zlen l))%Qc.
Proof.
  intro N. assert (P := num_pos l N). assert (NZ : num (zlen l) <> 0%Qc) by (intro E; rewrite E in P; exact (Qclt_not_eq _ _ P eq_refl)).
  assert (K := cauchy_c l N). assert (EM : mean_or_0 l = ((fst (total_c l) / num (zlen l))%Qc, (snd (total_c l) / num (zlen l))%Qc)) by (destruct l; [congruence|reflexivity]).
  rewrite EM. destruct (total_c l) as [a b]. cbn [fst snd power] in *. revert P NZ K. generalize (num (zlen l)), (total (map power l)). intros n T P NZ K.
  apply (Qcmult_lt_0_le_reg_r _ _ n P). apply (Qcmult_lt_0_le_reg_r _ _ n P).
  replace ((a / n * (a / n) + b / n * (b / n)) * n * n)%Qc with (a * a + b * b)%Qc by (field; exact NZ).
  replace (T / n * n * n)%Qc with (n * T)%Qc by (field; exact NZ). exact K.
Qed.
Lemma mean_const {A} (l : list A) (z : complex) : l <> [] -> mean_or_0 (map (fun _ => z) l) = z.
Proof.
  intro N. assert (P := num_pos l N). assert (NZ : num (zlen l) <> 0%Qc) by (intro E; rewrite E in P; exact (Qclt_not_eq _ _ P eq_refl)).
  assert (T : total_c (map (fun _ => z) l) = ((num (zlen l) * fst z)%Qc, (num (zlen l) * snd z)%Qc)).
  { clear. destruct z as [a b]. induction l as [|x l IH]; [cbn; change (num 0) with 0%Qc; f_equal; ring|]. cbn [map total_c]. rewrite IH. unfold plus. cbn [fst snd].
    assert (E : num (zlen (x :: l)) = (num (zlen l) + 1)%Qc).
    { rewrite !num_qn. apply P_RobustA.qn_S. }
    rewrite E. f_equal; ring. }
  unfold mean_or_0, mean_c. rewrite zlen_map, T. cbn [fst snd]. destruct l; [congruence|]. cbn [map]. destruct z as [u v]. cbn [fst snd]. f_equal; field; exact NZ.
Qed.
Lemma power_times z w : power (c_times z w) = (power z * power w)%Qc.
Proof. destruct z, w. cbn. ring. Qed.
Lemma c_times_assoc x y z : c_times x (c_times y z) = c_times (c_times x y) z.
Proof. destruct x, y, z. cbn. f_equal; ring. Qed.

Section Beam.
Context (E : Qc -> complex) (delay : bant -> Qc -> Qc) (tmin : Qc) (ants : list bant) (freq : list Qc) (nTime : Z) (data : list (list (list complex))) (p k t : Z)
  (Hk : 0 <= k < zlen freq) (Ht : 0 <= t < nTime).
Let good := filter (fun ax => (b_pol (fst ax) =? p) && (b_status (fst ax) =? 33)) (combine ants data).
Let f := znth 0%Qc k freq.
Let value (ax : bant * list (list complex)) := znth (0%Qc, 0%Qc) t (znth [] k (snd ax)).
Lemma beam_cell : znth (0%Qc, 0%Qc) t (znth [] k (beam_of E delay tmin ants freq nTime data p))
  = mean_or_0 (map (fun ax => c_times (E (f * (delay (fst ax) f - tmin))%Qc) (value ax)) good).
Proof. unfold beam_of. rewrite !upto_range. rewrite znth_range_map by exact Hk. cbv zeta. rewrite znth_range_map by exact Ht. reflexivity. Qed.
Theorem beam_coherent s : (forall x y, E (x + y)%Qc = c_times (E x) (E y)) -> good <> [] ->
  (forall ax, In ax good -> value ax = c_times (E (- (f * delay (fst ax) f))%Qc) s) ->
  znth (0%Qc, 0%Qc) t (znth [] k (beam_of E delay tmin ants freq nTime data p)) = c_times (E (- (f * tmin))%Qc) s.
Proof.
  intros HE N HV. rewrite beam_cell. rewrite (map_ext_in _ (fun _ => c_times (E (- (f * tmin))%Qc) s)); [apply mean_const, N|].
  intros ax I. rewrite (HV ax I), c_times_assoc, <- HE. do 2 f_equal. ring.
Qed.
Theorem beam_power : (forall x, power (E x) = 1%Qc) -> good <> [] ->
  (power (znth (0%Qc, 0%Qc) t (znth [] k (beam_of E delay tmin ants freq nTime data p))) <= total (map (fun ax => power (value ax)) good) / num (zlen good))%Qc.
Proof.
  intros HE N. rewrite beam_cell. eapply Qcle_trans; [apply power_mean; destruct good; [congruence|discriminate]|].
  rewrite map_map, zlen_map. erewrite map_ext; [apply Qcle_refl|]. intro ax. cbv beta. rewrite power_times, HE. ring.
Qed.
End Beam.

(** The whole array moved. *)
Definition move_ant (v : point) (a : bant) : bant := mkB (b_stand a) (b_pol a) (b_status a) (displaced (b_xyz a) v) (b_cable a).
Lemma total_shift (f : point -> Qc) (g : Qc) l : total (map (fun p => f p + g)%Qc l) = (total (map f l) + num (zlen l) * g)%Qc.
Proof.
  induction l as [|x l IH]; [cbn; change (num 0) with 0%Qc; ring|]. cbn [map total]. rewrite IH.
  assert (E : num (zlen (x :: l)) = (num (zlen l) + 1)%Qc).
  { rewrite !num_qn. apply P_RobustA.qn_S. }
  rewrite E. ring.
Qed.
Lemma middle_moved v l : l <> [] -> middle (map (fun p => displaced p v) l) = displaced (middle l) v.
Proof.
  intro N. assert (P := num_pos l N). assert (NZ : num (zlen l) <> 0%Qc) by (intro E; rewrite E in P; exact (Qclt_not_eq _ _ P eq_refl)).
  destruct v as [[a b] c]. unfold middle. rewrite zlen_map, !map_map.
  assert (E1 : map (fun x => fst (fst (displaced x (a, b, c)))) l = map (fun x : point => fst (fst x) + a)%Qc l) by (apply map_ext; intros [[? ?] ?]; reflexivity).
  assert (E2 : map (fun x => snd (fst (displaced x (a, b, c)))) l = map (fun x : point => snd (fst x) + b)%Qc l) by (apply map_ext; intros [[? ?] ?]; reflexivity).
  assert (E3 : map (fun x => snd (displaced x (a, b, c))) l = map (fun x : point => snd x + c)%Qc l) by (apply map_ext; intros [[? ?] ?]; reflexivity).
  rewrite E1, E2, E3. rewrite (total_shift (fun p => fst (fst p))), (total_shift (fun p => snd (fst p))), (total_shift snd). unfold displaced, point in *. f_equal; [f_equal|]; field; exact NZ.
Qed.
Theorem delay_moved src light ants fr az alt v : calc_delay src light (map (move_ant v) ants) fr az alt = calc_delay src light ants fr az alt.
Proof.
  unfold calc_delay. destruct (_ || _); [reflexivity|]. destruct (_ || _); [reflexivity|]. f_equal. rewrite map_map.
  assert (C : centre (map (move_ant v) ants) = option_map (fun m => displaced m v) (centre ants)).
  { rewrite !centre_spec, filter_map_comm. cbn [b_stand move_ant]. destruct (filter _ ants) as [|x l] eqn:E; [reflexivity|]. cbn [option_map].
    change (map (move_ant v) (x :: l)) with (map (move_ant v) (x :: l)). rewrite <- middle_moved by discriminate. cbn [map]. rewrite !map_map. reflexivity. }
  rewrite C. destruct (centre ants) as [m|]; [|reflexivity]. cbn [option_map]. apply map_ext. intro a. apply map_ext. intro f. cbn [b_cable b_xyz move_ant]. do 4 f_equal.
  destruct (b_xyz a) as [[? ?] ?], m as [[? ?] ?], v as [[? ?] ?]. cbn. f_equal; [f_equal|]; ring.
Qed.
Theorem circular_power iau x y : let '(l, r) := circularize iau x y in (power l + power r = Q2Qc 2 * (power x + power y))%Qc.
Proof. destruct x as [a b], y as [c d], iau; cbn; change (Q2Qc 2) with (1 + 1)%Qc; ring. Qed.
Theorem circular_back iau x y : let '(l, r) := circularize iau x y in plus l r = c_times (Q2Qc 2, 0%Qc) x.
Proof. destruct x as [a b], y as [c d], iau; cbn; unfold plus; cbn; change (Q2Qc 2) with (1 + 1)%Qc; f_equal; ring. Qed.
Theorem circular_v iau x y : let '(l, r) := circularize iau x y in (power r - power l = (if iau then 1 else - (1)) * (Q2Qc 4 * snd (times_conj y x)))%Qc.
Proof. destruct x as [a b], y as [c d], iau; cbn; change (Q2Qc 4) with (1 + 1 + (1 + 1))%Qc; ring. Qed.
