(** The spectral kurtosis: the theorems. *)
From Coq Require Import List ZArith Bool QArith Lia Lqa Permutation.
From Verif Require Import M_Py M_Kurt S_Kurt P_Kurt.
Import ListNotations.
Open Scope Z_scope.

Lemma total_sum : forall l, total (fun x => x) l = qsum l /\ total (fun x => x * x)%Q l = sq l.
Proof. intro l. induction l as [|x l [A B]]; [split; reflexivity|]. cbn [total]. rewrite A, B. split; reflexivity. Qed.
Lemma est_some : forall m n l k, estimate m n l = Ok (Some k) -> m <> 1 /\ ~ (qsum l == 0)%Q /\ k = ((inject_Z m * sq l / (qsum l * qsum l) - 1) * (inject_Z (m * n + 1) / inject_Z (m - 1)))%Q.
Proof.
  intros m n l k H. unfold estimate in H. destruct (Z.eqb_spec m 1) as [|N]; [discriminate|]. destruct (Qeq_bool (qsum l) 0) eqn:E; [discriminate|]. injection H as <-. split; [exact N|]. split; [apply Qeq_bool_neq; exact E|reflexivity].
Qed.
Lemma est_can : forall m n l, m <> 1 -> ~ (qsum l == 0)%Q -> exists k, estimate m n l = Ok (Some k).
Proof.
  intros m n l N S. unfold estimate. destruct (Z.eqb_spec m 1) as [E|_]; [contradiction|]. destruct (Qeq_bool (qsum l) 0) eqn:E; [apply Qeq_bool_iff in E; contradiction|]. eauto.
Qed.
Lemma injZ_pos : forall z, 0 < z -> (0 < inject_Z z)%Q.
Proof. intros z H. change 0%Q with (inject_Z 0). rewrite <- Zlt_Qlt. exact H. Qed.
Lemma sum_sq_pos : forall s : Q, ~ (s == 0)%Q -> (0 < s * s)%Q.
Proof. intros s N. pose proof (square s) as P. destruct (Qle_lt_or_eq _ _ P) as [L|E]; [exact L|]. symmetry in E. apply Qmult_integral in E. tauto. Qed.
(** For two or more powers with a sum other than zero the value is the estimator of Nita and Gary; a sum of zero gives nan and a single
    power ZeroDivisionError. *)
Lemma C135_value_proof : forall n x,
  (length x <> 1%nat -> ~ (total (fun v => v) x == 0)%Q -> exists k, spectral_power n x = Ok (Some k) /\ kurtosis_is n x k) /\
  (length x <> 1%nat -> (total (fun v => v) x == 0)%Q -> spectral_power n x = Ok None) /\
  (length x = 1%nat -> spectral_power n x = Raise ZeroDivisionError).
Proof.
  intros n x. destruct (total_sum x) as [T1 T2]. rewrite T1. split; [|split].
  - intros N S. destruct (est_can (Z.of_nat (length x)) n x ltac:(lia) S) as [k K]. exists k. split; [exact K|]. apply est_some in K. destruct K as (M1 & _ & ->). unfold kurtosis_is. cbv zeta. rewrite T1, T2.
    set (m := Z.of_nat (length x)) in *. assert (Nz : ~ (inject_Z m - 1 == 0)%Q) by (intro E; apply M1; assert (E2 : (inject_Z m == inject_Z 1)%Q) by (change (inject_Z 1) with 1%Q; lra); unfold inject_Z, Qeq in E2; cbn in E2; lia).
    unfold Z.sub. rewrite !inject_Z_plus, inject_Z_mult. change (inject_Z (Z.opp 1)) with (-1)%Q. change (inject_Z 1) with 1%Q. field. split; [exact S|]. intro E. apply Nz. lra.
  - intros N S. unfold spectral_power, estimate. destruct (Z.eqb_spec (Z.of_nat (length x)) 1); [lia|]. apply Qeq_bool_iff in S. rewrite S. reflexivity.
  - intro L. unfold spectral_power. rewrite L. reflexivity.
Qed.
Lemma C135_value_example_proof : exists k, spectral_power 1 [1%Q; 2%Q; 3%Q] = Ok (Some k) /\ (k == 1 # 3)%Q.
Proof. eexists. split; [reflexivity|]. vm_compute. reflexivity. Qed.
(** The value is never negative, zero exactly for powers all alike, and at most M N + 1 for powers that are not negative. *)
Lemma C135_bounds_proof : forall n x k, 0 <= n -> (2 <= length x)%nat -> spectral_power n x = Ok (Some k) ->
  (0 <= k)%Q /\ ((k == 0)%Q <-> exists p, Forall (fun v => (v == p)%Q) x) /\
  (Forall (fun v => (0 <= v)%Q) x -> (k <= inject_Z (Z.of_nat (length x) * n + 1))%Q).
Proof.
  intros n x k Hn L H. apply est_some in H. destruct H as (_ & S & ->). set (m := Z.of_nat (length x)) in *. assert (Em : inject_Z m = len x) by reflexivity. rewrite Em.
  assert (P := sum_sq_pos _ S). pose proof (cauchy x) as C.
  set (f := (inject_Z (m * n + 1) / inject_Z (m - 1))%Q). assert (F : (0 < f)%Q) by (unfold f; apply Qlt_shift_div_l; [apply injZ_pos; lia|]; setoid_replace (0 * inject_Z (m - 1))%Q with 0%Q by ring; apply injZ_pos; lia).
  assert (G : (0 <= len x * sq x / (qsum x * qsum x) - 1)%Q) by (assert (1 <= len x * sq x / (qsum x * qsum x))%Q by (apply Qle_shift_div_l; [exact P|]; lra); lra).
  split; [apply Qmult_le_0_compat; lra|]. split; [split|].
  - intro E. apply Qmult_integral in E. destruct E as [E|E]; [|lra]. apply cauchy_eq. assert (E2 : (len x * sq x / (qsum x * qsum x) == 1)%Q) by lra.
    setoid_replace (len x * sq x)%Q with (len x * sq x / (qsum x * qsum x) * (qsum x * qsum x))%Q by (field; exact S). rewrite E2. ring.
  - intros [p E]. apply const_eq in E. rewrite E. clearbody f. field. exact S.
  - intro N. apply nonneg_sum in N. destruct N as [_ N].
    assert (B : (len x * sq x / (qsum x * qsum x) - 1 <= inject_Z (m - 1))%Q).
    { assert (len x * sq x / (qsum x * qsum x) <= len x)%Q.
      { apply Qle_shift_div_r; [exact P|]. assert (0 <= len x)%Q by (rewrite <- Em; apply Qlt_le_weak, injZ_pos; lia). rewrite Qmult_comm, (Qmult_comm (len x)). apply Qmult_le_compat_r; assumption. }
      unfold Z.sub. rewrite inject_Z_plus, Em. change (inject_Z (Z.opp 1)) with (-1)%Q. lra. }
    assert (Y := injZ_pos (m - 1) ltac:(lia)). setoid_replace (inject_Z (m * n + 1))%Q with (inject_Z (m - 1) * f)%Q by (unfold f; field; lra). apply Qmult_le_compat_r; [exact B|lra].
Qed.
Lemma C135_bounds_example_proof : exists k, spectral_power 2 [0%Q; 0%Q; 5%Q] = Ok (Some k) /\ (k == 7)%Q.
Proof. eexists. split; [reflexivity|]. vm_compute. reflexivity. Qed.
(** Neither the order of the powers nor a common factor matters. *)
Lemma C135_invariant_proof : forall n x y c, Permutation x y -> ~ (c == 0)%Q -> same (spectral_power n x) (spectral_power n (map (fun v => c * v)%Q y)).
Proof.
  intros n x y c P C. unfold spectral_power. rewrite map_length, <- (Permutation_length P). set (m := Z.of_nat (length x)).
  assert (S1 : (qsum (map (fun v => c * v) y) == c * qsum x)%Q) by (rewrite qsum_scale, (qsum_perm _ _ P); reflexivity).
  assert (S2 : (sq (map (fun v => c * v) y) == c * c * sq x)%Q) by (rewrite sq_scale; unfold sq; rewrite (qsum_perm _ _ (Permutation_map (fun v => v * v)%Q P)); reflexivity).
  unfold estimate. destruct (Z.eqb_spec m 1) as [|M1]; [reflexivity|].
  destruct (Qeq_bool (qsum x) 0) eqn:E.
  - apply Qeq_bool_iff in E. replace (Qeq_bool (qsum (map (fun v => c * v)%Q y)) 0) with true by (symmetry; apply Qeq_bool_iff; rewrite S1, E; ring). exact Logic.I.
  - apply Qeq_bool_neq in E. destruct (Qeq_bool (qsum (map (fun v => c * v)%Q y)) 0) eqn:E2.
    + apply Qeq_bool_iff in E2. rewrite S1 in E2. apply Qmult_integral in E2. tauto.
    + cbn [same]. fold (sq x). fold (sq (map (fun v => c * v)%Q y)). rewrite S1, S2.
      assert (Q1 : (inject_Z m * sq x / (qsum x * qsum x) == inject_Z m * (c * c * sq x) / (c * qsum x * (c * qsum x)))%Q) by (field; tauto). rewrite Q1. reflexivity.
Qed.
Lemma C135_invariant_example_proof : Permutation [1%Q; 2%Q] [2%Q; 1%Q] /\ ~ (3 == 0)%Q.
Proof. split; [constructor|discriminate]. Qed.
(** With axis=0 the values of a two-dimensional array are those of its columns. *)
Lemma C135_columns_proof : forall n r c x ks, rectangle r c x -> spectral_axis0 n c x = Ok ks ->
  length ks = c /\ forall j, (j < c)%nat -> spectral_power n (map (fun l => nth j l 0%Q) x) = Ok (nth j ks None).
Proof.
  intros n r c x ks _ H. apply all_ok_in in H. destruct H as [L N]. rewrite map_length, seq_length in *. split; [exact L|]. intros j J. specialize (N j J).
  rewrite (nth_indep _ _ (estimate (Z.of_nat (length x)) n (column x 0))) in N by (rewrite map_length, seq_length; exact J).
  rewrite (map_nth (fun j => estimate (Z.of_nat (length x)) n (column x j)) (seq 0 c) 0%nat j), seq_nth in N by exact J. unfold spectral_power. rewrite map_length. exact N.
Qed.
Lemma C135_columns_example_proof : rectangle 2 1 [[1%Q]; [3%Q]] /\ exists k, spectral_axis0 1 1 [[1%Q]; [3%Q]] = Ok [Some k].
Proof. split; [split; [reflexivity|repeat constructor]|]. eexists. vm_compute. reflexivity. Qed.
(** PARTIAL (missing: other arrays, see the refutation): with axis=1 the values of a square array are those of its rows. *)
Lemma C135_rows_partial_proof : forall n r x ks, rectangle r r x -> spectral_axis1 n x = Ok ks ->
  length ks = r /\ forall i, (i < r)%nat -> spectral_power n (nth i x []) = Ok (nth i ks None).
Proof.
  intros n r x ks [R F] H. apply all_ok_in in H. destruct H as [L N]. rewrite map_length, R in *. split; [exact L|]. intros i I. specialize (N i I).
  rewrite (nth_indep _ _ (estimate (Z.of_nat r) n [])) in N by (rewrite map_length, R; exact I). rewrite (map_nth (fun l => estimate (Z.of_nat r) n l)) in N.
  unfold spectral_power. rewrite Forall_forall in F. rewrite (F (nth i x [])) by (apply nth_In; rewrite R; exact I). exact N.
Qed.
Lemma C135_rows_partial_example_proof : rectangle 2 2 [[1%Q; 2%Q]; [3%Q; 5%Q]] /\ exists ks, spectral_axis1 1 [[1%Q; 2%Q]; [3%Q; 5%Q]] = Ok ks.
Proof. split; [split; [reflexivity|repeat constructor]|]. eexists. vm_compute. reflexivity. Qed.
(** With axis=1 the number of rows is taken for the number of values summed: rows of values all alike, for which the value of any row by
    itself is zero, get another value whenever there are not as many columns as rows. *)
Lemma C135_rows_refuted_proof : forall n r c p, 0 <= n -> (2 <= r)%nat -> (2 <= c)%nat -> r <> c -> ~ (p == 0)%Q ->
  (exists k, spectral_power n (repeat p c) = Ok (Some k) /\ (k == 0)%Q) /\
  exists k, spectral_axis1 n (repeat (repeat p c) r) = Ok (repeat (Some k) r) /\ ~ (k == 0)%Q.
Proof.
  intros n r c p Hn R C RC P. assert (F : Forall (fun v => (v == p)%Q) (repeat p c)) by (apply Forall_forall; intros v V; apply repeat_spec in V; subst; reflexivity).
  assert (S : (qsum (repeat p c) == inject_Z (Z.of_nat c) * p)%Q /\ (sq (repeat p c) == inject_Z (Z.of_nat c) * (p * p))%Q).
  { clear. induction c as [|c [A B]]; [split; vm_compute; reflexivity|]. cbn [repeat]. rewrite qsum_cons, sq_cons, A, B, Nat2Z.inj_succ. unfold Z.succ. rewrite inject_Z_plus. split; change (inject_Z 1) with 1%Q; ring. }
  destruct S as [S1 S2]. assert (Cp := injZ_pos (Z.of_nat c) ltac:(lia)). assert (N0 : ~ (qsum (repeat p c) == 0)%Q) by (rewrite S1; intro E; apply Qmult_integral in E; destruct E; [lra|tauto]).
  split.
  - destruct (est_can (Z.of_nat (length (repeat p c))) n (repeat p c) ltac:(rewrite repeat_length; lia) N0) as [k K]. exists k. split; [exact K|].
    apply (proj1 (proj2 (C135_bounds_proof n (repeat p c) k Hn ltac:(rewrite repeat_length; lia) K))). exists p. exact F.
  - destruct (est_can (Z.of_nat r) n (repeat p c) ltac:(lia) N0) as [k K]. exists k. split.
    + unfold spectral_axis1. rewrite repeat_length. assert (G : forall q, all_ok (map (fun l => estimate (Z.of_nat r) n l) (repeat (repeat p c) q)) = Ok (repeat (Some k) q)).
      { induction q as [|q IH]; [reflexivity|]. cbn [repeat map all_ok]. rewrite K, IH. reflexivity. } apply G.
    + apply est_some in K. destruct K as (_ & _ & ->). rewrite S1, S2. intro E. apply Qmult_integral in E. assert (Rp := injZ_pos (Z.of_nat r - 1) ltac:(lia)). destruct E as [E|E].
      * assert (E2 : (inject_Z (Z.of_nat r) == inject_Z (Z.of_nat c))%Q).
        { setoid_replace (inject_Z (Z.of_nat r) * (inject_Z (Z.of_nat c) * (p * p)) / (inject_Z (Z.of_nat c) * p * (inject_Z (Z.of_nat c) * p)))%Q with (inject_Z (Z.of_nat r) / inject_Z (Z.of_nat c))%Q in E by (field; split; (exact P || lra)).
          transitivity (inject_Z (Z.of_nat r) / inject_Z (Z.of_nat c) * inject_Z (Z.of_nat c))%Q; [field; lra|]. assert (X : (inject_Z (Z.of_nat r) / inject_Z (Z.of_nat c) == 1)%Q) by lra. rewrite X. ring. }
        unfold inject_Z, Qeq in E2. cbn in E2. lia.
      * assert (Y : (0 < inject_Z (Z.of_nat r * n + 1) / inject_Z (Z.of_nat r - 1))%Q) by (apply Qlt_shift_div_l; [exact Rp|]; setoid_replace (0 * inject_Z (Z.of_nat r - 1))%Q with 0%Q by ring; apply injZ_pos; nia). lra.
Qed.
Lemma C135_rows_refuted_example_proof : exists k, spectral_axis1 1 [[1%Q; 2%Q; 3%Q]; [1%Q; 2%Q; 3%Q]] = Ok [Some k; Some k] /\ (k == - (2 # 3))%Q.
Proof. eexists. split; [vm_compute; reflexivity|]. vm_compute. reflexivity. Qed.
(** Of an array with several columns taken as a whole the value is wrong as well. *)
Lemma C135_whole_refuted_proof : exists x k k', rectangle 2 2 x /\ spectral_all 1 x = Ok (Some k) /\ spectral_power 1 (concat x) = Ok (Some k') /\ ~ (k == k')%Q.
Proof. exists [[1%Q; 2%Q]; [3%Q; 5%Q]]. eexists. eexists. split; [split; [reflexivity|repeat constructor]|]. split; [vm_compute; reflexivity|]. split; [vm_compute; reflexivity|]. vm_compute. discriminate. Qed.
(** The value for spectra is that for their powers. *)
Lemma C135_spectra_proof : forall x, spectral_fft x = spectral_power 1 (map (fun z => fst z * fst z + snd z * snd z)%Q x).
Proof. intro x. unfold spectral_fft. apply f_equal. apply map_ext. intros [re im]. reflexivity. Qed.
Lemma C135_spectra_example_proof : exists k, spectral_fft [(1%Q, 0%Q); (3%Q, 4%Q)] = Ok (Some k).
Proof. eexists. vm_compute. reflexivity. Qed.

(** The expected variance and third moment are positive for two or more points; for one point they raise ZeroDivisionError. *)
Lemma C136_moments_proof : forall m n, 1 <= m -> 1 <= n ->
  (2 <= m -> exists v s, var m n = Ok v /\ skew m n = Ok s /\ (0 < v)%Q /\ (0 < s)%Q) /\ (m = 1 -> var m n = Raise ZeroDivisionError /\ skew m n = Raise ZeroDivisionError).
Proof.
  intros m n Hm Hn. split.
  - intro M. assert (D1 : 0 < (m - 1) * (m * n + 3) * (m * n + 2)) by (apply Z.mul_pos_pos; nia). assert (D2 : 0 < (m - 1) * (m * n + 5) * (m * n + 4)) by (apply Z.mul_pos_pos; nia).
    unfold skew, var. destruct (Z.eqb_spec ((m - 1) * (m * n + 3) * (m * n + 2)) 0); [lia|]. cbn [bind]. destruct (Z.eqb_spec ((m - 1) * (m * n + 5) * (m * n + 4)) 0); [lia|].
    eexists. eexists. split; [reflexivity|]. split; [reflexivity|].
    assert (V : (0 < inject_Z (2 * n * (n + 1) * (m * m)) / inject_Z ((m - 1) * (m * n + 3) * (m * n + 2)))%Q).
    { apply Qlt_shift_div_l; [apply injZ_pos; exact D1|]. setoid_replace (0 * inject_Z ((m - 1) * (m * n + 3) * (m * n + 2)))%Q with 0%Q by ring. apply injZ_pos. repeat apply Z.mul_pos_pos; lia. }
    split; [exact V|]. set (v := (inject_Z (2 * n * (n + 1) * (m * m)) / inject_Z ((m - 1) * (m * n + 3) * (m * n + 2)))%Q) in *. clearbody v.
    assert (A := injZ_pos m ltac:(lia)). assert (B := injZ_pos _ D2). assert (C : (0 < inject_Z ((n + 4) * m * n - 5 * n - 2))%Q) by (apply injZ_pos; nia).
    set (a := inject_Z m) in *. set (b := inject_Z ((m - 1) * (m * n + 5) * (m * n + 4))) in *. set (c := inject_Z ((n + 4) * m * n - 5 * n - 2)) in *. clearbody a b c.
    assert (P1 : (0 < 4 * v * a)%Q) by nra. assert (P2 : (0 < 4 * v * a / b)%Q) by (apply Qlt_shift_div_l; [exact B|]; setoid_replace (0 * b)%Q with 0%Q by ring; exact P1). nra.
  - intros ->. split; reflexivity.
Qed.
Lemma C136_moments_example_proof : exists v s, var 2 1 = Ok v /\ skew 2 1 = Ok s /\ (0 < v)%Q /\ (0 < s)%Q.
Proof. apply C136_moments_proof; lia. Qed.
(** PARTIAL (missing: other exceptions, see the refutation): whenever limits are given the error handling of numpy is as before, and
    a limit that overflows is replaced by so many standard deviations from 1. *)
Lemma C136_restored_partial_proof : forall sigma std m n params lo hi,
  (forall a b l, get_limits sigma std m n params lo hi = (Ok (a, b), l) -> l = Before /\
     (forall q, lo = Value q -> a = q) /\ (lo = FloatingPoint -> (a == 1 - sigma * std)%Q) /\ (forall q, hi = Value q -> b = q) /\ (hi = FloatingPoint -> (b == 1 + sigma * std)%Q)) /\
  (2 <= m -> 1 <= n -> params = Ok tt -> (forall e, lo <> Other e) -> (forall e, hi <> Other e) -> exists ab, get_limits sigma std m n params lo hi = (Ok ab, Before)).
Proof.
  intros sigma std m n params lo hi. split.
  - intros a b l H. unfold get_limits in H. destruct (bind (skew m n) (fun _ => params)); [|discriminate].
    destruct lo as [q| |e]; cbn [limit] in H; [| |discriminate]; (destruct hi as [q'| |e']; cbn [limit] in H; [| |discriminate]); injection H as <- <- <-;
      (split; [reflexivity|]); repeat split; intros; try discriminate; try congruence; reflexivity.
  - intros M N -> L H. destruct (proj1 (C136_moments_proof m n ltac:(lia) N) M) as (v & s & _ & K & _). unfold get_limits. rewrite K. cbn [bind].
    destruct lo as [q| |e]; cbn [limit]; [| |exfalso; exact (L e eq_refl)]; (destruct hi as [q'| |e']; cbn [limit]; [| |exfalso; exact (H e' eq_refl)]); eauto.
Qed.
Lemma C136_restored_partial_example_proof : get_limits 3 1 100 1 (Ok tt) FloatingPoint (Value 2) = (Ok ((1 - 3 * 1)%Q, 2%Q), Before).
Proof. reflexivity. Qed.
(** After any exception, as for a single point, all numpy floating-point errors stay exceptions for the rest of the program. *)
Lemma C136_restored_refuted_proof : forall sigma std n params lo hi, get_limits sigma std 1 n params lo hi = (Raise ZeroDivisionError, Raising).
Proof. reflexivity. Qed.
Lemma C136_left_refuted_proof : forall sigma std m n params lo hi e l, get_limits sigma std m n params lo hi = (Raise e, l) -> l = Raising.
Proof.
  intros sigma std m n params lo hi e l H. unfold get_limits in H. destruct (bind (skew m n) (fun _ => params)); [|congruence]. destruct (limit lo _); [|congruence]. destruct (limit hi _); congruence.
Qed.
Lemma C136_left_refuted_example_proof : get_limits 3 1 1 1 (Ok tt) (Value 0) (Value 2) = (Raise ZeroDivisionError, Raising).
Proof. reflexivity. Qed.
