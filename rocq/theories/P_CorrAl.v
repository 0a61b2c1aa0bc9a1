(** What the delays do: signals that differ by a delay are aligned. *)
From Coq Require Import List ZArith QArith Qcanon Qround Bool Lia Permutation.
From Verif Require Import LibList M_Base P_Base M_Corr S_Corr P_Corr P_CorrSpec P_CorrPsd P_CorrF.
Import ListNotations.
Open Scope Z_scope.

Lemma lag_near : forall rate fref tau, (num (lag rate fref tau) - Q2Qc (1 # 2) <= tau fref * rate)%Qc /\ (tau fref * rate < num (lag rate fref tau) + Q2Qc (1 # 2))%Qc.
Proof.
  intros rate fref tau. unfold lag, nearest. set (x := (tau fref * rate)%Qc). clearbody x.
  assert (H1 := Qfloor_le (this x + (1 # 2))). assert (H2 := Qlt_floor (this x + (1 # 2))). set (z := Qfloor (this x + (1 # 2))) in *. clearbody z.
  assert (Hn : (this (num z) == inject_Z z)%Q) by (unfold num, Q2Qc, this; apply Qred_correct).
  assert (Hh : (this (Q2Qc (1 # 2)) == 1 # 2)%Q) by (unfold Q2Qc, this; apply Qred_correct).
  split.
  - unfold Qcle. assert (E : (this (num z - Q2Qc (1 # 2))%Qc == inject_Z z - (1 # 2))%Q).
    { unfold Qcminus, Qcplus, Qcopp. unfold Q2Qc at 1. cbn [this]. rewrite Qred_correct. unfold Q2Qc at 1. cbn [this]. rewrite Qred_correct. rewrite Hn, Hh. reflexivity. }
    rewrite E. apply (Qplus_le_l _ _ (1 # 2)). ring_simplify. apply (Qle_trans _ (this x + (1 # 2))); [|ring_simplify; apply Qle_refl]. exact H1.
  - unfold Qclt. assert (E : (this (num z + Q2Qc (1 # 2))%Qc == inject_Z z + (1 # 2))%Q).
    { unfold Qcplus. unfold Q2Qc at 1. cbn [this]. rewrite Qred_correct. rewrite Hn, Hh. reflexivity. }
    rewrite E. apply (Qplus_lt_l _ _ (1 # 2)). apply (Qlt_le_trans _ (inject_Z (z + 1))); [exact H2|]. rewrite inject_Z_plus. change (inject_Z 1) with 1%Q.
    setoid_replace (inject_Z z + (1 # 2) + (1 # 2))%Q with (inject_Z z + 1)%Q by ring. apply Qle_refl.
Qed.
Lemma nearest_num : forall z, nearest (num z) = z.
Proof.
  intro z. unfold nearest. assert (Hn : (this (num z) == inject_Z z)%Q) by (unfold num, Q2Qc, this; apply Qred_correct).
  rewrite Hn. unfold Qfloor, inject_Z, Qplus. cbn [Qnum Qden]. change (Z.pos 2) with 2. change (1 * 2)%positive with 2%positive. symmetry. apply (Z.div_unique_pos _ _ _ 1); lia.
Qed.

Lemma c_times_0 : forall z, c_times z (0%Qc, 0%Qc) = (0%Qc, 0%Qc).
Proof. intros [a b]. unfold c_times. f_equal; ring. Qed.
Lemma c_times_comm : forall z w, c_times z w = c_times w z.
Proof. intros [a b] [c d]. unfold c_times. f_equal; ring. Qed.
Lemma c_times_assoc : forall z w v, c_times z (c_times w v) = c_times (c_times z w) v.
Proof. intros [a b] [c d] [e f]. unfold c_times. f_equal; ring. Qed.
Lemma total_times : forall ph l, total_c (map (c_times ph) l) = c_times ph (total_c l).
Proof.
  intros ph l. induction l as [|z l IH]; cbn [map total_c]; [symmetry; apply c_times_0|]. rewrite IH. destruct ph as [a b], z as [c d], (total_c l) as [e f].
  unfold plus, c_times. cbn [fst snd]. f_equal; ring.
Qed.
Lemma power_times : forall z w, power (c_times z w) = (power z * power w)%Qc.
Proof. intros [a b] [c d]. unfold power, c_times. ring. Qed.
Lemma conj_times : forall z w, times_conj z w = (fst (times_conj w z), (- snd (times_conj w z))%Qc).
Proof. intros [a b] [c d]. unfold times_conj. cbn [fst snd]. f_equal; ring. Qed.

Section Aligned.
Context (F : list complex -> list complex) (L taps : Z) (w : option (Z -> Qc)) (ph : complex) (n : Z) (s x : list complex) (d : Z).
Hypothesis HL : 0 < L.
Hypothesis Ht : 0 < taps.
Hypothesis Hlin : forall l, F (map (c_times ph) l) = map (c_times ph) (F l).
Hypothesis Hd : 0 <= d.
Hypothesis Hx : forall q, 0 <= q < n -> znth (0%Qc, 0%Qc) q x = c_times ph (sample s (q - d)).

Lemma sample_delayed : forall q, q + d < n -> sample x (q + d) = c_times ph (sample s q).
Proof.
  intros q Hq. destruct (Z.lt_ge_cases (q + d) 0) as [H|H].
  - unfold sample. destruct (Z.ltb_spec (q + d) 0); [|lia]. destruct (Z.ltb_spec q 0); [|lia]. symmetry. apply c_times_0.
  - unfold sample at 1. destruct (Z.ltb_spec (q + d) 0); [lia|]. rewrite Hx by lia. do 2 f_equal. lia.
Qed.
Lemma bin_delayed : forall p b, p + d + L <= n -> bin F L taps w x (p + d) b = c_times ph (bin F L taps w s p b).
Proof.
  intros p b Hp. unfold bin. rewrite <- total_times, map_map. f_equal. apply map_ext_in. intros l Hl. rewrite upto_range in Hl. apply range_in in Hl.
  assert (E : block L taps w x (p + d) l = map (c_times ph) (block L taps w s p l)).
  { unfold block. rewrite map_map. apply map_ext_in. intros k Hk. rewrite upto_range in Hk. apply range_in in Hk.
    replace (p + d - L * (taps - 1) + l * L + k) with (p - L * (taps - 1) + l * L + k + d) by lia. rewrite sample_delayed by nia.
    unfold weigh. destruct w as [u|]; [|reflexivity]. destruct ph as [a c], (sample s (p - L * (taps - 1) + l * L + k)) as [e f]. unfold c_times. cbn [fst snd]. f_equal; ring. }
  rewrite E, Hlin. rewrite <- (c_times_0 ph) at 1. unfold znth. destruct (b <? 0); [reflexivity|]. apply map_nth.
Qed.
Lemma blanked_delayed : forall level p, power ph = 1%Qc -> p + d + L <= n -> blanked L taps level x (p + d) = blanked L taps level s p.
Proof.
  intros level p Hu Hp. unfold blanked, used. rewrite !upto_range. replace (p + d - L * (taps - 1)) with (p - L * (taps - 1) + d) by lia. replace (p + d + L) with (p + L + d) by lia.
  rewrite range_shift, existsb_map. apply existsb_ext_in. intros q Hq. apply range_in in Hq. unfold too_large. rewrite sample_delayed by lia. rewrite power_times, Hu.
  replace (1 * power (sample s q))%Qc with (power (sample s q)) by ring. reflexivity.
Qed.
End Aligned.

(** A signal that arrives [d] samples later; [fc] is the frequency the receiver moved to zero, so that the delay also turns its phase. *)
Lemma starts_in : forall L n step p, 0 < step -> In p (starts L n step) -> 0 <= p /\ p + L <= n.
Proof.
  intros L n step p Hs H. unfold starts in H. apply in_map_iff in H. destruct H as (j & <- & Hj). rewrite upto_range in Hj. apply range_in in Hj.
  destruct (Z.ltb_spec n L); [lia|]. pose proof (Z.mul_div_le (n - L) step Hs). nia.
Qed.
Lemma aligned_vis : forall F L taps w level step dmax (s x1 x2 : list complex) d1 d2 ph1 ph2 r1 r2 g b, 0 < L -> 0 < taps -> 0 < step ->
  (forall l, F (map (c_times ph1) l) = map (c_times ph1) (F l)) -> (forall l, F (map (c_times ph2) l) = map (c_times ph2) (F l)) ->
  0 <= d1 <= dmax -> 0 <= d2 <= dmax -> power ph1 = 1%Qc -> power ph2 = 1%Qc -> zlen x1 = zlen s ->
  (forall q, 0 <= q < zlen s -> znth (0%Qc, 0%Qc) q x1 = c_times ph1 (sample s (q - d1))) ->
  (forall q, 0 <= q < zlen s -> znth (0%Qc, 0%Qc) q x2 = c_times ph2 (sample s (q - d2))) ->
  c_times ph1 r1 = (g, 0%Qc) -> c_times ph2 r2 = (g, 0%Qc) ->
  vis F L taps w level step dmax x1 x2 d1 d2 r1 r2 b =
  option_map (fun v => ((g * g * v)%Qc, 0%Qc)) (mean (map (fun p => power (bin F L taps w s p b)) (filter (fun p => negb (blanked L taps level s p)) (starts L (zlen s - dmax) step)))).
Proof.
  intros F L taps w level step dmax s x1 x2 d1 d2 ph1 ph2 r1 r2 g b HL Ht Hs F1 F2 D1 D2 P1 P2 Hz X1 X2 R1 R2.
  unfold vis. rewrite Hz.
  transitivity (mean_c (map (fun p => ((g * g * power (bin F L taps w s p b))%Qc, 0%Qc)) (filter (fun p => negb (blanked L taps level s p)) (starts L (zlen s - dmax) step)))).
  - f_equal. assert (Hin : forall p, In p (starts L (zlen s - dmax) step) -> 0 <= p /\ p + L <= zlen s - dmax) by (intros p Hp; apply (starts_in _ _ step); assumption).
    revert Hin. induction (starts L (zlen s - dmax) step) as [|p l IH]; intro Hin; [reflexivity|]. cbn [filter].
    destruct (Hin p (or_introl eq_refl)) as [Hp0 Hp1].
    rewrite (blanked_delayed F L taps ph1 (zlen s) s x1 d1) by (try assumption; lia). rewrite (blanked_delayed F L taps ph2 (zlen s) s x2 d2) by (try assumption; lia).
    rewrite Bool.andb_diag. specialize (IH (fun q Hq => Hin q (or_intror Hq))). destruct (blanked L taps level s p); cbn [negb]; [exact IH|]. cbn [map]. f_equal; [|exact IH].
    rewrite (bin_delayed F L taps w ph1 (zlen s) s x1 d1) by (try assumption; lia). rewrite (bin_delayed F L taps w ph2 (zlen s) s x2 d2) by (try assumption; lia).
    rewrite (c_times_comm ph1), (c_times_comm ph2), <- !c_times_assoc, R1, R2. destruct (bin F L taps w s p b) as [x y]. unfold times_conj, c_times, power. f_equal; ring.
  - set (l := filter _ _). clearbody l. destruct l as [|p l]; [reflexivity|]. set (h := p :: l). assert (Hh : h <> []) by discriminate. clearbody h.
    assert (T : total_c (map (fun p => ((g * g * power (bin F L taps w s p b))%Qc, 0%Qc)) h) = ((g * g * total (map (fun p => power (bin F L taps w s p b)) h))%Qc, 0%Qc)).
    { clear Hh. induction h as [|q h IH]; cbn [map total_c total]; [f_equal; ring|]. rewrite IH. unfold plus. cbn [fst snd]. f_equal; ring. }
    unfold mean_c, mean. destruct h as [|q h]; [contradiction|]. set (h' := q :: h) in *. clearbody h'. rewrite !zlen_map in *.
    replace (match map (fun p0 => ((g * g * power (bin F L taps w s p0 b))%Qc, 0%Qc)) h' with [] => None | _ => _ end) with (Some ((g * g * total (map (fun p => power (bin F L taps w s p b)) h') / num (zlen h'))%Qc, 0%Qc)).
    + destruct h'; [contradiction|]. cbn [map option_map]. f_equal. f_equal. unfold Qcdiv. ring.
    + rewrite T. cbn [fst snd]. destruct h'; [contradiction|]. cbn [map]. do 2 f_equal. unfold Qcdiv. ring.
Qed.
