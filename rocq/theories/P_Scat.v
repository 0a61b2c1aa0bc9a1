(** Proofs about the deconvolution of scattered pulses. *)
From Coq Require Import List ZArith Bool QArith Qround Lia Lqa.
From Verif Require Import M_Py M_Num P_Num M_Scat S_Scat.
Import ListNotations.
Open Scope Q_scope.

Lemma total_acc : forall l a, fold_left Qplus l a == a + add_up l.
Proof. intro l. induction l as [|x l IH]; intro a; cbn [fold_left add_up]; [ring|rewrite IH; ring]. Qed.
Lemma total_eq : forall l, total l == add_up l.
Proof. intro l. unfold total. rewrite total_acc. ring. Qed.
Lemma qmax_spec : forall l d, (In (qmax l d) (d :: l)) /\ Forall (fun x => x <= qmax l d) (d :: l).
Proof.
  unfold qmax. intro l. induction l as [|x l IH]; intro d; cbn [fold_left]; [split; [left; reflexivity|repeat constructor; lra]|].
  destruct (IH (if Qle_bool x d then d else x)) as [A B]. set (m := fold_left _ l _) in *. clearbody m. pose proof (Forall_inv B) as B0. apply Forall_inv_tail in B. destruct (Qle_bool x d) eqn:E.
  - apply Qle_bool_iff in E. split; [destruct A; [left; assumption|right; right; assumption]|]. constructor; [exact B0|]. constructor; [lra|exact B].
  - apply Qle_bool_f in E. split; [destruct A; [right; left; assumption|right; right; assumption]|]. constructor; [lra|]. constructor; [exact B0|exact B].
Qed.
Lemma place_spec : forall m l, In m l -> (place m l < length l)%nat /\ nth (place m l) l 0 == m.
Proof.
  intros m l. induction l as [|x l IH]; intro I; [contradiction|]. cbn [place]. destruct (Qeq_bool x m) eqn:E; [apply Qeq_bool_iff in E; split; [cbn; lia|exact E]|].
  destruct I as [<-|I]; [apply Qeq_bool_neq in E; exfalso; apply E; reflexivity|]. destruct (IH I) as [A B]. split; [cbn; lia|exact B].
Qed.
Lemma add_at_length : forall l k v, length (add_at k v l) = length l.
Proof. intro l. induction l as [|x l IH]; intros [|k] v; cbn [add_at length]; auto. Qed.
Lemma add_at_nth : forall l k v j, (k < length l)%nat -> nth j (add_at k v l) 0 == nth j l 0 + (if Nat.eqb j k then v else 0).
Proof.
  intro l. induction l as [|x l IH]; intros k v j K; [cbn in K; lia|]. destruct k as [|k]; destruct j as [|j]; cbn [add_at nth Nat.eqb].
  - ring.
  - ring.
  - ring.
  - apply IH. cbn in K. lia.
Qed.
Lemma add_at_sum : forall l k v, (k < length l)%nat -> add_up (add_at k v l) == add_up l + v.
Proof.
  intro l. induction l as [|x l IH]; intros k v K; [cbn in K; lia|]. destruct k as [|k]; cbn [add_at add_up]; [ring|]. rewrite IH by (cbn in K; lia). ring.
Qed.
Lemma minus_length : forall a b, length a = length b -> length (minus a b) = length a.
Proof. intro a. induction a as [|x a IH]; intros [|y b] H; cbn in *; auto. Qed.
Lemma minus_nth : forall a b j, length a = length b -> nth j (minus a b) 0 == nth j a 0 - nth j b 0.
Proof.
  intro a. induction a as [|x a IH]; intros [|y b] j H; cbn in H; try discriminate; [destruct j; cbn; ring|]. destruct j as [|j]; cbn [minus nth]; [ring|]. apply IH. lia.
Qed.
Lemma minus_sum : forall a b, length a = length b -> add_up (minus a b) == add_up a - add_up b.
Proof. intro a. induction a as [|x a IH]; intros [|y b] H; cbn in H; try discriminate; cbn [minus add_up]; [ring|]. rewrite IH by lia. ring. Qed.
Lemma sum_to_ext : forall n f g, (forall p, (p < n)%nat -> f p == g p) -> sum_to n f == sum_to n g.
Proof. intros n f g. induction n as [|n IH]; intro H; cbn [sum_to]; [reflexivity|]. rewrite IH by (intros; apply H; lia). rewrite (H n) by lia. reflexivity. Qed.
Lemma sum_to_zero : forall n f, (forall p, (p < n)%nat -> f p == 0) -> sum_to n f == 0.
Proof. intros n f. induction n as [|n IH]; intro H; cbn [sum_to]; [reflexivity|]. rewrite IH by (intros; apply H; lia). rewrite (H n) by lia. ring. Qed.
Lemma sum_to_one : forall n k v f, (k < n)%nat -> sum_to n (fun p => (if Nat.eqb p k then v else 0) * f p) == v * f k.
Proof.
  intros n k v f. induction n as [|n IH]; intro K; [lia|]. cbn [sum_to]. destruct (Nat.eqb_spec n k) as [->|N].
  - rewrite sum_to_zero; [ring|]. intros p P. destruct (Nat.eqb_spec p k); [lia|ring].
  - rewrite IH by lia. ring.
Qed.
Lemma sum_to_plus : forall n f g, sum_to n (fun p => f p + g p) == sum_to n f + sum_to n g.
Proof. intros n f g. induction n as [|n IH]; cbn [sum_to]; [ring|rewrite IH; ring]. Qed.
Lemma scaled_nth : forall g s c j, nth j (map (fun x => x / s * c) g) 0 == nth j (map (fun x => x / s) g) 0 * c.
Proof. intro g. induction g as [|x g IH]; intros s c [|j]; cbn [map nth]; try ring. apply IH. Qed.
Lemma scaled_sum : forall g s c, add_up (map (fun x => x / s * c) g) == add_up g / s * c.
Proof. intro g. induction g as [|x g IH]; intros s c; cbn [map add_up]; [unfold Qdiv; ring|rewrite IH; unfold Qdiv; ring]. Qed.
Lemma norm_nth : forall g s s' j, s == s' -> nth j (map (fun x => x / s) g) 0 == nth j (map (fun x => x / s') g) 0.
Proof. intro g. induction g as [|x g IH]; intros s s' [|j] E; cbn [map nth]; try reflexivity; [rewrite E; reflexivity|apply IH; exact E]. Qed.
Section Clean.
  Variable screen : list Q -> Q -> list Q.
  Variable sigma gain : Q.
  Variable t : list Q.
  Variable tau : Q.
  Hypothesis B : broadening screen t tau.
  Lemma comp_spec : forall k m, (k < length t)%nat -> length (component screen gain t tau k m) = length t /\ total (component screen gain t tau k m) == gain * m /\
    forall j, nth j (component screen gain t tau k m) 0 == gain * m * nth j (broadened screen t tau k) 0.
  Proof.
    intros k m K. destruct (B k K) as [L N]. unfold component, broadened. cbv zeta. set (g := screen _ tau) in *. split; [rewrite map_length; exact L|]. split.
    - rewrite total_eq, scaled_sum, total_eq. field. exact N.
    - intro j. rewrite scaled_nth, (norm_nth g _ _ j (total_eq g)). ring.
  Qed.
  Definition inv (raw working cc : list Q) : Prop :=
    length working = length t /\ length cc = length t /\ add_up working + add_up cc == add_up raw /\
    forall j, nth j working 0 + sum_to (length t) (fun p => nth p cc 0 * nth j (broadened screen t tau p) 0) == nth j raw 0.
  Lemma clean_inv : forall raw n i w cc i' w' cc', inv raw w cc -> clean screen sigma gain t tau n i w cc = Ok (i', w', cc') ->
    inv raw w' cc' /\ (i <= i' <= i + n)%nat /\ ((i' < i + n)%nat -> Forall (fun x => x < (3 # 2) * sigma) w' /\ w' <> []).
  Proof.
    intros raw n. induction n as [|n IH]; intros i w cc i' w' cc' I H; cbn [clean] in H.
    - injection H as <- <- <-. split; [exact I|]. split; [lia|]. intro X. lia.
    - destruct w as [|x r]; [discriminate|]. destruct (qmax_spec r x) as [M1 M2]. set (m := qmax r x) in *. clearbody m. destruct (place_spec m (x :: r) M1) as [P1 P2]. set (k := place m (x :: r)) in *. clearbody k.
      destruct (Qle_bool ((3 # 2) * sigma) m) eqn:E; cbn [negb] in H.
      + destruct I as (Lw & Lc & S & R). assert (K : (k < length t)%nat) by (rewrite <- Lw; exact P1). destruct (comp_spec k m K) as (C1 & C2 & C3). set (c := component screen gain t tau k m) in *.
        apply IH in H.
        * destruct H as (A1 & A2 & A3). split; [exact A1|]. split; [lia|]. intro X. apply A3. lia.
        * split; [rewrite minus_length by lia; exact Lw|]. split; [rewrite add_at_length; exact Lc|]. split.
          -- rewrite minus_sum by lia. rewrite add_at_sum by lia. rewrite total_eq, <- S. ring.
          -- intro j. rewrite minus_nth by lia. rewrite <- (R j), C3.
             assert (Q1 : sum_to (length t) (fun p => nth p (add_at k (total c) cc) 0 * nth j (broadened screen t tau p) 0) ==
                          sum_to (length t) (fun p => nth p cc 0 * nth j (broadened screen t tau p) 0) + gain * m * nth j (broadened screen t tau k) 0).
             { rewrite <- C2, <- (sum_to_one (length t) k (total c) (fun p => nth j (broadened screen t tau p) 0) K), <- sum_to_plus. apply sum_to_ext. intros p P. rewrite add_at_nth by lia. ring. }
             rewrite Q1. ring.
      + injection H as <- <- <-. split; [exact I|]. split; [lia|]. intros _. apply Qle_bool_f in E. split; [|discriminate]. apply Forall_forall. intros y Y. rewrite Forall_forall in M2. specialize (M2 y Y). lra.
  Qed.
End Clean.
Lemma cc_nonneg : forall screen sigma gain t tau, broadening screen t tau -> 0 <= sigma -> 0 <= gain -> forall n i w cc i' w' cc', length w = length t -> length cc = length t ->
  Forall (fun x => 0 <= x) cc -> clean screen sigma gain t tau n i w cc = Ok (i', w', cc') -> Forall (fun x => 0 <= x) cc'.
Proof.
  intros screen sigma gain t tau B Hs Hg n. induction n as [|n IH]; intros i w cc i' w' cc' Lw Lc P H; cbn [clean] in H; [injection H as <- <- <-; exact P|].
  destruct w as [|x r]; [discriminate|]. destruct (qmax_spec r x) as [M1 M2]. set (m := qmax r x) in *. clearbody m. destruct (place_spec m (x :: r) M1) as [P1 P2]. set (k := place m (x :: r)) in *. clearbody k.
  destruct (Qle_bool ((3 # 2) * sigma) m) eqn:E; cbn [negb] in H; [|injection H as <- <- <-; exact P]. apply Qle_bool_iff in E.
  assert (K : (k < length t)%nat) by (rewrite <- Lw; exact P1). destruct (comp_spec screen gain t tau B k m K) as (C1 & C2 & _).
  apply IH in H; [exact H|rewrite minus_length by lia; exact Lw|rewrite add_at_length; exact Lc|].
  apply Forall_forall. intros y Y. destruct (In_nth _ _ 0 Y) as (j & J & <-). rewrite add_at_length in J. rewrite add_at_nth by lia. rewrite Forall_forall in P.
  assert (N := P _ (nth_In _ 0 J)). destruct (Nat.eqb j k); [|lra]. rewrite C2. assert (0 <= m) by lra. assert (0 <= gain * m) by (apply Qmult_le_0_compat; assumption). lra.
Qed.
Lemma better_spec : forall b r, match better b r with
  | None => b = None /\ r_merit r = None
  | Some o => (o = r /\ exists m, r_merit r = Some m /\ forall p m', b = Some p -> r_merit p = Some m' -> m < m') \/
              (b = Some o /\ forall m m', r_merit o = Some m -> r_merit r = Some m' -> m <= m')
  end.
Proof.
  intros b r. unfold better. destruct (r_merit r) as [m|] eqn:R.
  - destruct b as [o|]; [|left; split; [reflexivity|]; exists m; split; [reflexivity|]; intros p m' X; discriminate]. destruct (r_merit o) as [m'|] eqn:O.
    + destruct (Qle_bool m' m) eqn:E; cbn [negb].
      * right. split; [reflexivity|]. intros a c A C. apply Qle_bool_iff in E. congruence.
      * left. split; [reflexivity|]. exists m. split; [reflexivity|]. apply Qle_bool_f in E. intros p c P C. congruence.
    + right. split; [reflexivity|]. intros. congruence.
  - destruct b as [o|]; [right; split; [reflexivity|]; intros; congruence|split; reflexivity].
Qed.
(** The first of the trials with the least figure of merit. *)
Lemma search_spec : forall screen sigma gain t merit max_iter raw l b o, (forall p, b = Some p -> r_merit p <> None) -> search screen sigma gain t merit max_iter raw b l = Ok o ->
  exists trials, Forall2 (fun tau x => try_tau screen sigma gain t merit max_iter raw tau = Ok x) l trials /\
    match o with
    | None => b = None /\ Forall (fun x => r_merit x = None) trials
    | Some r => (b = Some r /\ Forall (fun x => forall m m', r_merit r = Some m -> r_merit x = Some m' -> m <= m') trials) \/
                exists pre post m, trials = pre ++ r :: post /\ r_merit r = Some m /\ Forall (fun x => forall m', r_merit x = Some m' -> m < m') pre /\
                  Forall (fun x => forall m', r_merit x = Some m' -> m <= m') post /\ forall p m', b = Some p -> r_merit p = Some m' -> m < m'
    end.
Proof.
  intros screen sigma gain t merit max_iter raw l. induction l as [|tau l IH]; intros b o W H; cbn [search] in H.
  - injection H as <-. exists []. split; [constructor|]. destruct b as [r|]; [left; split; [reflexivity|constructor]|split; [reflexivity|constructor]].
  - destruct (try_tau screen sigma gain t merit max_iter raw tau) as [x|e] eqn:T; cbn [bind] in H; [|discriminate]. pose proof (better_spec b x) as BS. apply IH in H; [|intros p P; rewrite P in BS; destruct BS as [[-> (m & M & _)]|[E _]]; [congruence|exact (W p E)]]. destruct H as (trials & F & S). exists (x :: trials). split; [constructor; assumption|].
    destruct o as [r|].
    + destruct S as [[S1 S2]|(pre & post & m & -> & R & A & C & D)].
      * rewrite S1 in BS. destruct BS as [[-> (m & M & L)]|[E L]].
        -- right. exists [], trials, m. split; [reflexivity|]. split; [exact M|]. split; [constructor|]. split; [|exact L]. revert S2. apply Forall_impl. intros y Y m'. apply Y. exact M.
        -- left. split; [exact E|]. constructor; [exact L|exact S2].
      * right. exists (x :: pre), post, m. split; [reflexivity|]. split; [exact R|]. destruct (better b x) as [o|] eqn:E.
        -- destruct BS as [[-> (m1 & M1 & L)]|[Eb L]].
           ++ split; [constructor; [|exact A]|split; [exact C|]]; [intros m' M'; exact (D x m' eq_refl M')|]. intros p m' P M'. assert (m < m1) by exact (D x m1 eq_refl M1). pose proof (L p m' P M'). lra.
           ++ split; [|split; [exact C|]].
              ** constructor; [|exact A]. intros m' M'. destruct (r_merit o) as [mo|] eqn:O; [|exfalso; exact (W o Eb O)]. pose proof (D o mo eq_refl O). pose proof (L mo m' eq_refl M'). lra.
              ** intros p m' P M'. rewrite Eb in P. injection P as <-. exact (D o m' eq_refl M').
        -- destruct BS as [-> N]. split; [constructor; [|exact A]; intros m' M'; congruence|]. split; [exact C|]. intros p m' P. discriminate.
    + destruct S as [S1 S2]. rewrite S1 in BS. destruct BS as [-> N]. split; [reflexivity|]. constructor; assumption.
Qed.
