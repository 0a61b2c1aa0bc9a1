(** Deconvolution of scattered pulses: the theorems. *)
From Coq Require Import List ZArith Bool QArith Qround Lia Lqa.
From Verif Require Import M_Py M_Num P_Num M_Scat S_Scat P_Scat.
Import ListNotations.
Open Scope Q_scope.

Lemma start_inv : forall screen t tau raw, length raw = length t -> inv screen t tau raw (map (fun x => x * 1) raw) (map (fun x => x * 0) raw).
Proof.
  intros screen t tau raw L. split; [rewrite map_length; exact L|]. split; [rewrite map_length; exact L|]. assert (Z : forall j, nth j (map (fun x => x * 0) raw) 0 == 0) by (clear; induction raw as [|x raw IH]; intros [|j]; cbn [map nth]; try ring; apply IH).
  split.
  - clear. induction raw as [|x raw IH]; cbn [map add_up]; [ring|]. rewrite <- IH. ring.
  - intro j. rewrite sum_to_zero by (intros p _; rewrite Z; ring). assert (O : nth j (map (fun x => x * 1) raw) 0 == nth j raw 0) by (clear; revert j; induction raw as [|x raw IH]; intros [|j]; cbn [map nth]; try ring; apply IH). rewrite O. ring.
Qed.
Lemma taus_in : forall lo hi step l tau, 0 < step -> taus lo hi step = Ok l -> In tau l -> lo <= tau < hi.
Proof.
  intros lo hi step l tau S H I. unfold taus in H. destruct (Qeq_bool step 0); [discriminate|]. injection H as <-. apply in_map_iff in I. destruct I as (k & <- & K). apply in_seq in K.
  assert (P : (0 <= inject_Z (Z.of_nat k))) by (change 0 with (inject_Z 0); rewrite <- Zle_Qle; lia). split; [assert (0 <= inject_Z (Z.of_nat k) * step) by (apply Qmult_le_0_compat; lra); lra|].
  assert (C : (Z.of_nat k < Qceiling ((hi - lo) / step))%Z) by lia. assert (D : inject_Z (Z.of_nat k) <= inject_Z (Qceiling ((hi - lo) / step) - 1)) by (rewrite <- Zle_Qle; lia).
  pose proof (Qceiling_lt ((hi - lo) / step)) as Q1. assert (E : inject_Z (Z.of_nat k) < (hi - lo) / step) by lra.
  assert (F : inject_Z (Z.of_nat k) * step < (hi - lo) / step * step) by (apply Qmult_lt_compat_r; assumption). setoid_replace ((hi - lo) / step * step) with (hi - lo) in F by (field; lra). lra.
Qed.
(** For any profile, whatever the broadening function and figure of merit: the profile is what is left and the components each broadened,
    its area that of the two, the components are not negative, and either all iterations were used or nothing above 1.5 times the
    off-pulse deviation is left; the scattering time is one of the range asked for. *)
Lemma C137_deconvolved_proof : forall screen sigma gain t merit max_iter raw lo hi step r, length raw = length t -> 0 <= sigma -> 0 <= gain -> 0 < step ->
  (forall tau, lo <= tau < hi -> broadening screen t tau) ->
  unscatter screen sigma gain t merit max_iter raw lo hi step = Ok r ->
  lo <= r_tau r < hi /\
  (forall j, nth j (r_left r) 0 + sum_to (length t) (fun p => nth p (r_cc r) 0 * nth j (broadened screen t (r_tau r) p) 0) == nth j raw 0) /\
  add_up (r_left r) + add_up (r_cc r) == add_up raw /\ length (r_left r) = length t /\ length (r_cc r) = length t /\ Forall (fun x => 0 <= x) (r_cc r) /\
  (r_iter r <= max_iter)%nat /\ ((r_iter r < max_iter)%nat -> Forall (fun x => x < (3 # 2) * sigma) (r_left r)) /\ r_merit r = merit raw (r_left r) (r_cc r).
Proof.
  intros screen sigma gain t merit max_iter raw lo hi step r L Hs Hg Hp B H. unfold unscatter in H. destruct (taus lo hi step) as [l|e] eqn:T; cbn [bind] in H; [|discriminate].
  destruct (search screen sigma gain t merit max_iter raw None l) as [o|e] eqn:S; cbn [bind] in H; [|discriminate]. destruct l as [|tau0 l0] eqn:El; [discriminate|]. rewrite <- El in *. destruct o as [r'|]; [|discriminate]. injection H as ->.
  apply search_spec in S; [|intros p P; discriminate]. destruct S as (trials & F & S). destruct S as [[S _]|(pre & post & m & -> & _)]; [discriminate|].
  apply Forall2_app_inv_r in F. destruct F as (l1 & l2 & _ & F & E). inversion F as [|tau x l2' trs Tr F' E1 E2]. subst l2 x trs. assert (I : In tau l) by (rewrite E; apply in_or_app; right; left; reflexivity).
  assert (R := taus_in lo hi step l tau Hp T I). unfold try_tau in Tr. destruct (clean screen sigma gain t tau max_iter 0 _ _) as [[[i w] cc]|e] eqn:C; cbn [bind] in Tr; [|discriminate]. injection Tr as <-. cbn [r_tau r_left r_cc r_iter r_merit].
  pose proof (clean_inv screen sigma gain t tau (B tau R) raw _ _ _ _ _ _ _ (start_inv screen t tau raw L) C) as (I1 & I2 & I3). destruct I1 as (J1 & J2 & J3 & J4).
  split; [exact R|]. split; [exact J4|]. split; [exact J3|]. split; [exact J1|]. split; [exact J2|]. split.
  - eapply (cc_nonneg screen sigma gain t tau (B tau R) Hs Hg); [| | |exact C]; rewrite ?map_length; auto. apply Forall_forall. intros y Y. apply in_map_iff in Y. destruct Y as (z & <- & _). lra.
  - split; [lia|]. split; [|reflexivity]. intro X. apply I3. lia.
Qed.
Lemma C137_deconvolved_example_proof : (forall tau, broadening flat [0; 1; 2] tau) /\ exists r, unscatter flat 1 (1 # 2) [0; 1; 2] (fun _ _ _ => Some 0) 3 [0; 6; 0] 1 3 1 = Ok r /\ r_iter r = 3%nat /\ r_cc r <> [0; 0; 0].
Proof.
  split.
  - intros tau p P. split; [reflexivity|]. vm_compute. discriminate.
  - eexists. split; [vm_compute; reflexivity|]. split; [reflexivity|discriminate].
Qed.
(** The scattering time reported is the first with the least figure of merit of those tried. *)
Lemma C138_best_proof : forall screen sigma gain t merit max_iter raw lo hi step r, unscatter screen sigma gain t merit max_iter raw lo hi step = Ok r ->
  exists l pre post m, taus lo hi step = Ok l /\ Forall2 (fun tau x => try_tau screen sigma gain t merit max_iter raw tau = Ok x) l (pre ++ r :: post) /\
    r_merit r = Some m /\ Forall (fun x => forall m', r_merit x = Some m' -> m < m') pre /\ Forall (fun x => forall m', r_merit x = Some m' -> m <= m') post.
Proof.
  intros screen sigma gain t merit max_iter raw lo hi step r H. unfold unscatter in H. destruct (taus lo hi step) as [l|e] eqn:T; cbn [bind] in H; [|discriminate].
  destruct (search screen sigma gain t merit max_iter raw None l) as [o|e] eqn:S; cbn [bind] in H; [|discriminate]. destruct l as [|tau0 l0] eqn:El; [discriminate|]. rewrite <- El in *. destruct o as [r'|]; [|discriminate]. injection H as ->.
  apply search_spec in S; [|intros p P; discriminate]. destruct S as (trials & F & S). destruct S as [[S _]|(pre & post & m & -> & M & A & C & _)]; [discriminate|]. exists l, pre, post, m. auto.
Qed.
Lemma C138_best_example_proof : exists r, unscatter flat 1 (1 # 2) [0; 1; 2] (fun _ _ _ => Some 0) 3 [0; 6; 0] 1 3 1 = Ok r /\ r_tau r == 1.
Proof. eexists. split; [vm_compute; reflexivity|]. vm_compute. reflexivity. Qed.
(** The times tried: from the least one on in equal steps, up to but not including the greatest; for a range that is not empty there is
    at least one. *)
Lemma C138_range_proof : forall lo hi step l, 0 < step -> taus lo hi step = Ok l ->
  (forall k, (k < length l)%nat -> nth k l 0 == lo + inject_Z (Z.of_nat k) * step) /\ Forall (fun tau => lo <= tau < hi) l /\ hi <= lo + inject_Z (Z.of_nat (length l)) * step /\ (l = [] <-> hi <= lo).
Proof.
  intros lo hi step l S H. assert (F : Forall (fun tau => lo <= tau < hi) l) by (apply Forall_forall; intros tau I; exact (taus_in lo hi step l tau S H I)).
  assert (U : hi <= lo + inject_Z (Z.of_nat (length l)) * step).
  { unfold taus in H. destruct (Qeq_bool step 0); [discriminate|]. injection H as <-. rewrite map_length, seq_length. set (c := Qceiling ((hi - lo) / step)). assert (D : (hi - lo) / step <= inject_Z (Z.of_nat (Z.to_nat c))).
    { eapply Qle_trans; [apply Qle_ceiling|]. fold c. rewrite <- Zle_Qle. lia. }
    assert (E : (hi - lo) / step * step <= inject_Z (Z.of_nat (Z.to_nat c)) * step) by (apply Qmult_le_compat_r; lra). setoid_replace ((hi - lo) / step * step) with (hi - lo) in E by (field; lra). lra. }
  split; [|split; [exact F|split; [exact U|]]].
  - unfold taus in H. destruct (Qeq_bool step 0); [discriminate|]. injection H as <-. intros k K. rewrite map_length, seq_length in K. rewrite (nth_indep _ 0 (lo + inject_Z (Z.of_nat 0) * step)) by (rewrite map_length, seq_length; exact K).
    rewrite (map_nth (fun k => lo + inject_Z (Z.of_nat k) * step)), seq_nth by exact K. reflexivity.
  - split.
    + intros ->. change (inject_Z (Z.of_nat (length (@nil Q)))) with 0 in U. lra.
    + intro G. destruct l as [|tau l]; [reflexivity|]. pose proof (Forall_inv F) as X. cbv beta in X. lra.
Qed.
Lemma C138_range_example_proof : exists l, taus 1 3 (3 # 4) = Ok l /\ length l = 3%nat.
Proof. eexists. split; vm_compute; reflexivity. Qed.
(** The error for a search without a good solution is never raised: an empty range gives UnboundLocalError instead, and figures of merit
    none of which is a number KeyError. *)
Lemma C138_no_solution_refuted_proof : forall screen sigma gain t merit max_iter raw lo hi step,
  unscatter screen sigma gain t merit max_iter raw lo hi step <> Raise RuntimeError /\
  (0 < step -> hi <= lo -> unscatter screen sigma gain t merit max_iter raw lo hi step = Raise NameError) /\
  (0 < step -> lo < hi -> raw <> [] -> (forall a b c, merit a b c = None) -> length raw = length t -> (forall tau, broadening screen t tau) -> unscatter screen sigma gain t merit max_iter raw lo hi step = Raise KeyError).
Proof.
  intros screen sigma gain t merit max_iter raw lo hi step.
  assert (Cl : forall tau n i w cc e, clean screen sigma gain t tau n i w cc = Raise e -> e = ValueError).
  { intros tau n. induction n as [|n IH]; intros i w cc e H; cbn [clean] in H; [discriminate|]. destruct w as [|x r]; [congruence|]. destruct (negb _); [discriminate|]. eapply IH; eauto. }
  assert (Tr : forall tau e, try_tau screen sigma gain t merit max_iter raw tau = Raise e -> e = ValueError).
  { intros tau e H. unfold try_tau in H. destruct (clean screen sigma gain t tau max_iter 0 _ _) as [[[i w] cc]|e'] eqn:C; cbn [bind] in H; [discriminate|]. apply Cl in C. congruence. }
  assert (Se : forall l b e, search screen sigma gain t merit max_iter raw b l = Raise e -> e = ValueError).
  { intro l. induction l as [|tau l IH]; intros b e H; cbn [search] in H; [discriminate|]. destruct (try_tau screen sigma gain t merit max_iter raw tau) as [x|e'] eqn:C; cbn [bind] in H; [eapply IH; eauto|]. apply Tr in C. congruence. }
  split; [|split].
  - intro H. unfold unscatter in H. unfold taus in H. destruct (Qeq_bool step 0); [discriminate|]. cbn [bind] in H. destruct (search screen sigma gain t merit max_iter raw None _) as [o|e] eqn:S; cbn [bind] in H.
    + destruct (map _ _); [discriminate|]. destruct o; discriminate.
    + apply Se in S. congruence.
  - intros S G. unfold unscatter. destruct (taus lo hi step) as [l|e] eqn:T.
    + rewrite (proj2 (proj2 (proj2 (proj2 (C138_range_proof lo hi step l S T)))) G). reflexivity.
    + unfold taus in T. destruct (Qeq_bool step 0) eqn:E; [|discriminate]. apply Qeq_bool_iff in E. lra.
  - intros S G N M L B. unfold unscatter. destruct (taus lo hi step) as [l|e] eqn:T; [|unfold taus in T; destruct (Qeq_bool step 0) eqn:E; [apply Qeq_bool_iff in E; lra|discriminate]].
    cbn [bind]. assert (Ne : l <> []) by (intro E; apply (proj2 (proj2 (proj2 (C138_range_proof lo hi step l S T)))) in E; lra).
    assert (Go : forall tau n i w cc, inv screen t tau raw w cc -> exists x, clean screen sigma gain t tau n i w cc = Ok x).
    { intros tau n. induction n as [|n IH]; intros i w cc I; cbn [clean]; [eauto|]. destruct w as [|x r]; [destruct I as (I & _); rewrite <- L in I; destruct raw; [congruence|discriminate]|].
      destruct (Qle_bool _ _) eqn:E; cbn [negb]; [|eauto]. apply IH.
      assert (C1 : clean screen sigma gain t tau 1 0 (x :: r) cc = Ok (1%nat, minus (x :: r) (component screen gain t tau (place (qmax r x) (x :: r)) (qmax r x)), add_at (place (qmax r x) (x :: r)) (M_Scat.total (component screen gain t tau (place (qmax r x) (x :: r)) (qmax r x))) cc)) by (cbn [clean]; rewrite E; reflexivity).
      exact (proj1 (clean_inv screen sigma gain t tau (B tau) raw _ _ _ _ _ _ _ I C1)). }
    assert (Sr : forall l, search screen sigma gain t merit max_iter raw None l = Ok None).
    { clear Ne T l. induction l as [|tau l IH]; [reflexivity|]. cbn [search]. unfold try_tau. destruct (Go tau max_iter 0%nat _ _ (start_inv screen t tau raw L)) as [[[i w] cc] E]. rewrite E. cbn [bind]. unfold better. cbn [r_merit]. rewrite M. exact IH. }
    rewrite Sr. cbn [bind]. destruct l; [congruence|reflexivity].
Qed.
Lemma C138_no_solution_refuted_example_proof : unscatter flat 1 (1 # 2) [0; 1; 2] (fun _ _ _ => Some 0) 3 [0; 6; 0] 3 3 1 = Raise NameError /\ unscatter flat 1 (1 # 2) [0; 1; 2] (fun _ _ _ => None) 3 [0; 6; 0] 1 3 1 = Raise KeyError.
Proof. split; vm_compute; reflexivity. Qed.
