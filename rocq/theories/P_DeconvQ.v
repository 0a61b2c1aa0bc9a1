(** The loop of lsq. *)
From Coq Require Import List ZArith QArith Qcanon Bool Lia.
From Verif Require Import LibList M_Py M_Num M_Base P_Base S_Corr P_Corr P_GridC P_Math M_Deconv S_Deconv P_Deconv P_DeconvC P_DeconvL.
Import ListNotations.
Open Scope Z_scope.

Section Lsq.
Context (H W : Z) (fails : image -> bool) (sim tidy : image -> image) (deviation : list Qc -> Qc) (convolve : image -> image) (beamClean : image) (mask : Z * Z -> bool).
Context (img : image) (gain rtol simToModel modelToSim : Qc).
Context (tidy_ok : forall d, minor_cycle H W d beamClean (Q2Qc (1 # 10)) 2000 = Ok (tidy d)).
Notation simulate := (fun m => if fails m then None else Some (sim m)).
Context (m0 : image) (first : Qc).
Notation model := (model sim tidy img m0 gain simToModel).
Notation residual := (residual sim tidy img m0 gain simToModel).
Notation rms := (rms H W sim tidy deviation img m0 gain simToModel).
Notation rms_before := (rms_before H W sim tidy deviation img m0 gain simToModel first).
Notation improves := (improves H W sim tidy deviation img m0 gain simToModel first rtol).
Notation worsens := (worsens H W sim tidy deviation img m0 gain simToModel first).
Notation settles := (settles H W sim tidy deviation img m0 gain simToModel first rtol).
Notation step := (lsq_step H W simulate deviation beamClean img gain rtol simToModel modelToSim).
Notation loop := (lsq_loop H W simulate deviation beamClean img gain rtol simToModel modelToSim).

(** The state before turn k: the model of the turn to come is what the update makes of the memory. *)
Definition at_turn (k : nat) (s : lstate) : Prop :=
  l_mdl s = 0 /\ l_old s = 0 /\ clip (fun c => (l_heap s 0 c + l_scaled s c * gain)%Qc) = model k /\ l_oldRMS s = rms_before k /\
  l_oldDiff s = match k with O => l_oldDiff s | S j => residual j end /\ l_diff s = match k with O => l_diff s | S j => residual j end /\
  l_mdl2 s = match k with O => None | S j => Some (fun c => (model j c * modelToSim)%Qc) end.
Lemma rms_values k : deviation (values H W (fun c => (img c - sim (model k) c)%Qc)) = rms k.
Proof. rewrite values_listed. reflexivity. Qed.
Lemma sub_lt (x y : Qc) : (0 < x - y)%Qc <-> (y < x)%Qc.
Proof.
  split; intro L.
  - apply Qcnot_le_lt. intro K. apply (Qclt_not_le _ _ L). pose proof (le_shift _ _ (- y)%Qc K) as Q. replace (y + - y)%Qc with 0%Qc in Q by ring. exact Q.
  - apply Qcnot_le_lt. intro K. apply (Qclt_not_le _ _ L). pose proof (le_shift _ _ y K) as Q. replace (x - y + y)%Qc with x in Q by ring. replace (0 + y)%Qc with y in Q by ring. exact Q.
Qed.
Lemma qabs_neg (x y : Qc) : (x <= y)%Qc -> qabs (x - y)%Qc = (y - x)%Qc.
Proof.
  intro L. unfold qabs. destruct (Qle_bool 0 (x - y)%Qc) eqn:T; [|ring]. apply (proj1 (qle_bool_iff 0%Qc _)) in T.
  assert (E : x = y). { apply Qcle_antisym; [exact L|]. pose proof (le_shift _ _ y T) as Q. replace (x - y + y)%Qc with x in Q by ring. replace (0 + y)%Qc with y in Q by ring. exact Q. } subst. ring.
Qed.
Lemma step_fails k s : at_turn k s -> fails (model k) = true -> exists s', step s = LStops s' /\ l_diff s' = l_diff s /\ l_mdl2 s' = l_mdl2 s.
Proof.
  intros [A [B [C _]]] F. unfold lsq_step. rewrite A. change (set_heap 0 (clip (set_heap 0 (fun c => (l_heap s 0 c + l_scaled s c * gain)%Qc) (l_heap s) 0)) (set_heap 0 (fun c => (l_heap s 0 c + l_scaled s c * gain)%Qc) (l_heap s)) 0) with (clip (fun c => (l_heap s 0 c + l_scaled s c * gain)%Qc)).
  rewrite C, F. eexists. split; [reflexivity|]. auto.
Qed.
Lemma step_runs k s : at_turn k s -> fails (model k) = false ->
  (worsens k -> exists s', step s = LStops s' /\ l_diff s' = l_oldDiff s /\ l_mdl2 s' = Some (fun c => (model k c * modelToSim)%Qc)) /\
  (settles k -> exists s', step s = LStops s' /\ l_diff s' = residual k /\ l_mdl2 s' = Some (fun c => (model k c * modelToSim)%Qc)) /\
  (improves k -> exists s', step s = LGoes s' /\ at_turn (S k) s').
Proof.
  intros [A [B [C [R [OD [D M2]]]]]] F. unfold lsq_step. rewrite A. change (set_heap 0 (clip (set_heap 0 (fun c => (l_heap s 0 c + l_scaled s c * gain)%Qc) (l_heap s) 0)) (set_heap 0 (fun c => (l_heap s 0 c + l_scaled s c * gain)%Qc) (l_heap s)) 0) with (clip (fun c => (l_heap s 0 c + l_scaled s c * gain)%Qc)).
  rewrite C, F, tidy_ok. cbn zeta. rewrite rms_values, R. split; [|split].
  - intro Wo. rewrite (proj2 (qlt_iff 0 _)) by (apply (proj2 (sub_lt _ _)); exact Wo). eexists. split; [reflexivity|]. cbn [l_diff l_mdl2]. auto.
  - intros [L1 L2]. rewrite (proj2 (qlt_false 0 _)) by (apply Qcnot_lt_le; intro K; apply (proj1 (sub_lt _ _)) in K; apply (Qclt_not_le _ _ K L1)).
    rewrite qabs_neg by exact L1. rewrite (proj2 (qlt_iff _ rtol)) by exact L2. eexists. split; [reflexivity|]. cbn [l_diff l_mdl2]. auto.
  - intros [L1 L2]. rewrite (proj2 (qlt_false 0 _)) by (apply Qcnot_lt_le; intro K; apply (proj1 (sub_lt _ _)) in K; apply (Qclt_not_le _ _ K L1)).
    rewrite qabs_neg by exact L1. rewrite (proj2 (qlt_false _ rtol)) by exact L2. eexists. split; [reflexivity|].
    unfold at_turn. cbn [l_mdl l_old l_heap l_scaled l_oldRMS l_oldDiff l_diff l_mdl2]. split; [reflexivity|]. split; [reflexivity|]. split; [|repeat split].
    transitivity (clip (fun c => (clip (fun c => (l_heap s 0 c + l_scaled s c * gain)%Qc) c + tidy (fun c => (img c - sim (model k) c)%Qc) c * simToModel * gain)%Qc)); [reflexivity|]. rewrite C. reflexivity.
Qed.
Lemma trichotomy k : worsens k \/ settles k \/ improves k.
Proof.
  destruct (Qclt_le_dec (rms_before k) (rms k)) as [L|L]; [left; exact L|right]. destruct (Qclt_le_dec (rms_before k - rms k) rtol) as [L2|L2]; [left|right]; split; assumption.
Qed.
(** Where the loop stops, starting with turn k with n turns to go: after [i] more turns that improve. *)
Definition outcome (k i n : nat) (s0 s : lstate) : Prop :=
  (forall j, (j < i)%nat -> fails (model (k + j)) = false /\ improves (k + j)) /\ (i <= n)%nat /\
  ((i = n /\ l_diff s = match (k + i)%nat with O => l_diff s0 | S j => residual j end /\ l_mdl2 s = match (k + i)%nat with O => None | S j => Some (fun c => (model j c * modelToSim)%Qc) end)
   \/ (i < n)%nat /\ fails (model (k + i)) = true /\ l_diff s = match (k + i)%nat with O => l_diff s0 | S j => residual j end /\ l_mdl2 s = match (k + i)%nat with O => None | S j => Some (fun c => (model j c * modelToSim)%Qc) end
   \/ (i < n)%nat /\ fails (model (k + i)) = false /\ l_mdl2 s = Some (fun c => (model (k + i) c * modelToSim)%Qc) /\
      ((settles (k + i) /\ l_diff s = residual (k + i)) \/ (worsens (k + i) /\ l_diff s = match (k + i)%nat with O => l_oldDiff s0 | S j => residual j end))).
Lemma loop_outcome n : forall k s, at_turn k s -> exists s' i, loop n s = Ok s' /\ outcome k i n s s'.
Proof.
  induction n as [|n IH]; intros k s A; cbn [lsq_loop].
  - exists s, 0%nat. split; [reflexivity|]. split; [intros j Hj; lia|]. split; [lia|]. left. split; [reflexivity|]. rewrite Nat.add_0_r. destruct A as [_ [_ [_ [_ [_ [D M]]]]]]. split; [exact D|exact M].
  - destruct (fails (model k)) eqn:F.
    + destruct (step_fails k s A F) as [s' [E [D M]]]. rewrite E. exists s', 0%nat. split; [reflexivity|]. split; [intros j Hj; lia|]. split; [lia|]. right. left. split; [lia|]. rewrite Nat.add_0_r. split; [exact F|].
      destruct A as [_ [_ [_ [_ [_ [D' M']]]]]]. rewrite D, M. auto.
    + destruct (step_runs k s A F) as [Wo [Se Im]]. destruct (trichotomy k) as [T|[T|T]].
      * destruct (Wo T) as [s' [E [D M]]]. rewrite E. exists s', 0%nat. split; [reflexivity|]. split; [intros j Hj; lia|]. split; [lia|]. right. right. split; [lia|]. rewrite Nat.add_0_r. split; [exact F|]. split; [exact M|].
        right. split; [exact T|]. rewrite D. destruct A as [_ [_ [_ [_ [OD _]]]]]. exact OD.
      * destruct (Se T) as [s' [E [D M]]]. rewrite E. exists s', 0%nat. split; [reflexivity|]. split; [intros j Hj; lia|]. split; [lia|]. right. right. split; [lia|]. rewrite Nat.add_0_r. auto.
      * destruct (Im T) as [s' [E A']]. rewrite E. destruct (IH (S k) s' A') as [s2 [i [E2 [O1 [O2 O3]]]]]. exists s2, (S i). split; [exact E2|]. replace (S k + i)%nat with (k + S i)%nat in O3 by lia.
        split; [|split; [lia|]].
        { intros [|j] Hj; [rewrite Nat.add_0_r; auto|]. replace (k + S j)%nat with (S k + j)%nat by lia. apply O1. lia. }
        { assert (NZ : (k + S i)%nat = S (k + i)) by lia. rewrite NZ in *. destruct O3 as [[P Q]|[[P [Q [Q1 Q2]]]|[P [Q [Q1 Q2]]]]].
          - left. split; [lia|exact Q].
          - right. left. split; [lia|]. auto.
          - right. right. split; [lia|]. auto. }
Qed.
End Lsq.
(** the drops add up *)
Section Drops.
Context (H W : Z) (sim tidy : image -> image) (deviation : list Qc -> Qc) (img m0 : image) (gain simToModel first rtol : Qc).
Notation rms := (rms H W sim tidy deviation img m0 gain simToModel).
Notation improves := (improves H W sim tidy deviation img m0 gain simToModel first rtol).
Lemma drops n : (0 <= rtol)%Qc -> (forall j, (1 <= j <= n)%nat -> improves j) -> (rms n + num (Z.of_nat n) * rtol <= rms 0)%Qc.
Proof.
  intros P. induction n as [|n IH]; intro HI.
  - replace (num (Z.of_nat 0)) with 0%Qc by reflexivity. replace (rms 0 + 0 * rtol)%Qc with (rms 0) by ring. apply Qcle_refl.
  - assert (G : (rms n + num (Z.of_nat n) * rtol <= rms 0)%Qc) by (apply IH; intros j Hj; apply HI; lia). eapply Qcle_trans; [|exact G].
    destruct (HI (S n) ltac:(lia)) as [_ D]. cbn [S_Deconv.rms_before] in D. pose proof (le_shift _ _ (rms (S n) + num (Z.of_nat n) * rtol)%Qc D) as Q.
    replace (rms n - rms (S n) + (rms (S n) + num (Z.of_nat n) * rtol))%Qc with (rms n + num (Z.of_nat n) * rtol)%Qc in Q by ring.
    replace (rms (S n) + num (Z.of_nat (S n)) * rtol)%Qc with (rtol + (rms (S n) + num (Z.of_nat n) * rtol))%Qc; [exact Q|]. rewrite Nat2Z.inj_succ, <- Z.add_1_r, num_plus, num_one. ring.
Qed.
End Drops.
