(** Proofs about background estimation. *)
From Coq Require Import List ZArith Bool QArith Lia Lqa.
From Verif Require Import M_Py M_Num P_Num M_Back S_Back.
Import ListNotations.
Open Scope Z_scope.

Lemma qsum_cons : forall x l, qsum (x :: l) = (x + qsum l)%Q.
Proof. reflexivity. Qed.
Lemma count_cons : forall x l, (count (x :: l) == 1 + count l)%Q.
Proof. intros x l. unfold count. cbn [length]. rewrite Nat2Z.inj_succ. unfold Z.succ. rewrite inject_Z_plus. change (inject_Z 1) with 1%Q. ring. Qed.
Lemma count_nonneg : forall l, (0 <= count l)%Q.
Proof. intro l. unfold count. change 0%Q with (inject_Z 0). rewrite <- Zle_Qle. lia. Qed.
Lemma count_pos : forall l, l <> [] -> (0 < count l)%Q.
Proof. intros l H. destruct l as [|x l]; [congruence|]. rewrite count_cons. pose proof (count_nonneg l). lra. Qed.
Lemma sum_low : forall a l, (forall x, In x l -> a <= x)%Q -> (a * count l <= qsum l)%Q.
Proof.
  intros a l. induction l as [|x l IH]; intro H; [change (count []) with 0%Q; change (qsum []) with 0%Q; lra|]. rewrite count_cons, qsum_cons. assert (a <= x)%Q by (apply H; left; reflexivity). assert (a * count l <= qsum l)%Q by (apply IH; intros y Y; apply H; right; exact Y). 
  assert (E : (a * (1 + count l) == a + a * count l)%Q) by ring. rewrite E. lra.
Qed.
Lemma sum_high : forall a l, (forall x, In x l -> x <= a)%Q -> (qsum l <= a * count l)%Q.
Proof.
  intros a l. induction l as [|x l IH]; intro H; [change (count []) with 0%Q; change (qsum []) with 0%Q; lra|]. rewrite count_cons, qsum_cons. assert (x <= a)%Q by (apply H; left; reflexivity). assert (qsum l <= a * count l)%Q by (apply IH; intros y Y; apply H; right; exact Y). 
  assert (E : (a * (1 + count l) == a + a * count l)%Q) by ring. rewrite E. lra.
Qed.
Lemma mean_between : forall lo hi l, l <> [] -> between lo hi l -> (lo <= mean l <= hi)%Q.
Proof.
  intros lo hi l N B. pose proof (count_pos l N) as P. unfold mean. split.
  - apply Qle_shift_div_l; [exact P|]. apply sum_low. intros x X. apply B. exact X.
  - apply Qle_shift_div_r; [exact P|]. apply sum_high. intros x X. apply B. exact X.
Qed.
Lemma variance_nonneg : forall l, (0 <= variance l)%Q.
Proof.
  intro l. unfold variance. destruct l as [|x l]; [vm_compute; discriminate|]. apply Qle_shift_div_l; [apply count_pos; discriminate|]. set (m := mean (x :: l)). generalize (x :: l). intro r. induction r as [|y r IH]; [cbn [map]; change (qsum []) with 0%Q; lra|]. cbn [map]. rewrite qsum_cons.
  assert (0 <= (y - m) * (y - m))%Q by (generalize (y - m)%Q; intro d; destruct (Qlt_le_dec d 0); nra). lra.
Qed.
(** Something is within three standard deviations of the mean. *)
Lemma clipped_some : forall l, l <> [] -> (0 < variance l)%Q -> clipped l <> [].
Proof.
  intros l N V E. assert (A : forall x, In x l -> (9 * variance l <= (x - mean l) * (x - mean l))%Q).
  { intros x X. destruct (Qle_bool (9 * variance l) ((x - mean l) * (x - mean l))) eqn:B; [apply Qle_bool_iff; exact B|]. exfalso. assert (I : In x (clipped l)) by (apply filter_In; split; [exact X|rewrite B; reflexivity]). rewrite E in I. exact I. }
  pose proof (count_pos l N) as P. assert (S : (9 * variance l * count l <= qsum (map (fun x => (x - mean l) * (x - mean l)) l))%Q).
  { set (v := variance l) in *. set (m := mean l) in *. clearbody v m. clear -A. induction l as [|x l IH]; [change (count []) with 0%Q; cbn [map]; change (qsum []) with 0%Q; lra|]. cbn [map]. rewrite count_cons, qsum_cons. assert (9 * v <= (x - m) * (x - m))%Q by (apply A; left; reflexivity).
    assert (9 * v * count l <= qsum (map (fun x => (x - m) * (x - m)) l))%Q by (apply IH; intros y Y; apply A; right; exact Y). assert (E : (9 * v * (1 + count l) == 9 * v + 9 * v * count l)%Q) by ring. rewrite E. lra. }
  assert (W : (variance l * count l == qsum (map (fun x => (x - mean l) * (x - mean l)) l))%Q) by (unfold variance; field; intro Z0; rewrite Z0 in P; lra).
  rewrite <- W in S. set (v := variance l) in *. set (c := count l) in *. clearbody v c. assert (0 < v * c)%Q by nra. assert (E9 : (9 * v * c == 9 * (v * c))%Q) by ring. rewrite E9 in S. lra.
Qed.
Lemma variance_constant : forall l, constant l -> (variance l == 0)%Q /\ forall x, In x l -> ((x - mean l) * (x - mean l) == 0)%Q.
Proof.
  intros l (c & H). destruct l as [|x0 l0] eqn:L; [split; [reflexivity|intros x []]|]. rewrite <- L in *. assert (N : l <> []) by (rewrite L; discriminate).
  assert (M : (mean l == c)%Q) by (assert (B : between c c l) by (intros x X; rewrite (H x X); lra); pose proof (mean_between c c l N B); lra).
  assert (Z0 : forall x, In x l -> ((x - mean l) * (x - mean l) == 0)%Q) by (intros x X; rewrite (H x X), M; ring).
  split; [|exact Z0]. unfold variance. assert (S : (qsum (map (fun x => (x - mean l) * (x - mean l)) l) == 0)%Q).
  { set (m := mean l) in *. clearbody m. clear -Z0. induction l as [|x l IH]; [reflexivity|]. cbn [map]. rewrite qsum_cons, IH by (intros y Y; apply Z0; right; exact Y). rewrite (Z0 x (or_introl eq_refl)). ring. }
  rewrite S. unfold Qdiv. ring.
Qed.
(** Without variance all are alike. *)
Lemma zero_variance : forall l, (variance l == 0)%Q -> constant l.
Proof.
  intros l V. exists (mean l). destruct l as [|x0 l0] eqn:L; [intros x []|]. rewrite <- L in *. assert (N : l <> []) by (rewrite L; discriminate). pose proof (count_pos l N) as P.
  assert (W : (variance l * count l == qsum (map (fun x => (x - mean l) * (x - mean l)) l))%Q) by (unfold variance; field; intro Z0; rewrite Z0 in P; lra).
  rewrite V in W. assert (S : (qsum (map (fun x => (x - mean l) * (x - mean l)) l) == 0)%Q) by (rewrite <- W; ring). set (m := mean l) in *. clearbody m. clear -S.
  assert (Sq : forall y : Q, (0 <= (y - m) * (y - m))%Q) by (intro y; generalize (y - m)%Q; intro d; destruct (Qlt_le_dec d 0); nra).
  assert (G : forall r, (0 <= qsum (map (fun x => (x - m) * (x - m)) r))%Q) by (induction r as [|y r IH]; [cbn [map]; change (qsum []) with 0%Q; lra|]; cbn [map]; rewrite qsum_cons; specialize (Sq y); lra).
  induction l as [|y l IH]; [intros x []|]. cbn [map] in S. rewrite qsum_cons in S. specialize (G l) as Gl. specialize (Sq y) as Sy. intros x [<-|X].
  - assert (E : ((y - m) * (y - m) == 0)%Q) by lra. apply Qmult_integral in E. destruct E; lra.
  - apply IH; [lra|exact X].
Qed.
Lemma mean_avg : forall l, mean l = avg l.
Proof. reflexivity. Qed.
Lemma variance_dev2 : forall l, variance l = dev2 l.
Proof. intro l. unfold variance, dev2. unfold avg at 1. rewrite map_length. reflexivity. Qed.
Lemma clipped_near : forall l x, In x (clipped l) <-> In x l /\ near l x.
Proof.
  intros l x. unfold clipped, near. rewrite filter_In, <- variance_dev2. change (avg l) with (mean l). split; intros [A B]; (split; [exact A|]).
  - destruct (Qle_bool (9 * variance l) ((x - mean l) * (x - mean l))) eqn:E; [discriminate|]. apply Qnot_le_lt. intro H. apply Qle_bool_iff in H. congruence.
  - destruct (Qle_bool (9 * variance l) ((x - mean l) * (x - mean l))) eqn:E; [|reflexivity]. apply Qle_bool_iff in E. exfalso. apply (Qlt_irrefl (9 * variance l)). eapply Qle_lt_trans; eassumption.
Qed.
