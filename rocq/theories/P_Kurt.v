(** Proofs about the spectral kurtosis. *)
From Coq Require Import List ZArith Bool QArith Lia Lqa Permutation.
From Verif Require Import M_Py M_Kurt.
Import ListNotations.
Open Scope Q_scope.

Definition sq (l : list Q) : Q := qsum (map (fun x => x * x) l).
Definition len (l : list Q) : Q := inject_Z (Z.of_nat (length l)).
Lemma len_cons : forall x l, len (x :: l) == len l + 1.
Proof. intros x l. unfold len. cbn [length]. rewrite Nat2Z.inj_succ. unfold Z.succ. rewrite inject_Z_plus. reflexivity. Qed.
Lemma sq_cons : forall x l, sq (x :: l) = x * x + sq l.
Proof. reflexivity. Qed.
Lemma qsum_cons : forall x l, qsum (x :: l) = x + qsum l.
Proof. reflexivity. Qed.
Lemma nils : sq [] == 0 /\ qsum [] == 0 /\ len [] == 0.
Proof. repeat split; reflexivity. Qed.
Ltac gen l := let A := fresh "A" in let B := fresh "B" in let C := fresh "C" in set (A := sq l) in *; set (B := qsum l) in *; set (C := len l) in *; clearbody A B C.
Lemma square : forall x : Q, 0 <= x * x.
Proof. intro x. nra. Qed.
Lemma dev_nonneg : forall x l, 0 <= sq l + len l * (x * x) - 2 * qsum l * x.
Proof.
  intros x l. induction l as [|y l IH]; [destruct nils as (-> & -> & ->); lra|]. rewrite len_cons, sq_cons, qsum_cons. pose proof (square (y - x)) as P. gen l. nra.
Qed.
Lemma dev_zero : forall x l, sq l + len l * (x * x) - 2 * qsum l * x == 0 -> Forall (fun y => y == x) l.
Proof.
  intros x l. induction l as [|y l IH]; intro H; [constructor|]. rewrite len_cons, sq_cons, qsum_cons in H. pose proof (dev_nonneg x l) as D. pose proof (square (y - x)) as P.
  assert (T : (y - x) * (y - x) + (sq l + len l * (x * x) - 2 * qsum l * x) == 0) by (rewrite <- H; ring).
  assert (E : (y - x) * (y - x) == 0) by lra. constructor; [|apply IH; lra]. apply Qmult_integral in E. destruct E; lra.
Qed.
Lemma cauchy : forall l, qsum l * qsum l <= len l * sq l.
Proof.
  intro l. induction l as [|x l IH]; [destruct nils as (-> & -> & ->); lra|]. rewrite len_cons, sq_cons, qsum_cons. pose proof (dev_nonneg x l) as D. gen l. nra.
Qed.
Lemma cauchy_eq : forall l, len l * sq l == qsum l * qsum l -> exists x, Forall (fun y => y == x) l.
Proof.
  intro l. destruct l as [|x l]; [exists 0; constructor|]. intro H. exists x. constructor; [reflexivity|]. apply dev_zero.
  pose proof (dev_nonneg x l) as D. pose proof (cauchy l) as C. rewrite len_cons, sq_cons, qsum_cons in H.
  assert (T : (len l * sq l - qsum l * qsum l) + (sq l + len l * (x * x) - 2 * qsum l * x) == 0) by (setoid_replace 0 with ((len l + 1) * (x * x + sq l) - (x + qsum l) * (x + qsum l)) by (rewrite H; ring); ring). lra.
Qed.
Lemma const_eq : forall x l, Forall (fun y => y == x) l -> len l * sq l == qsum l * qsum l.
Proof.
  intros x l H. assert (S : qsum l == len l * x /\ sq l == len l * (x * x)).
  { induction H as [|y l E H [IH1 IH2]]; [destruct nils as (-> & -> & ->); split; ring|]. rewrite len_cons, sq_cons, qsum_cons, IH1, IH2, E. split; ring. }
  destruct S as [-> ->]. ring.
Qed.
Lemma nonneg_sum : forall l, Forall (fun x => 0 <= x) l -> 0 <= qsum l /\ sq l <= qsum l * qsum l.
Proof.
  intros l H. induction H as [|x l X H [I1 I2]]; [destruct nils as (-> & -> & _); split; lra|]. rewrite sq_cons, qsum_cons. assert (P : 0 <= x * qsum l) by (apply Qmult_le_0_compat; assumption). gen l. split; [lra|nra].
Qed.
Lemma qsum_perm : forall l l', Permutation l l' -> qsum l == qsum l'.
Proof.
  intros l l' H. induction H as [|x l l' P IH|x y l|a b c P1 E1 P2 E2]; unfold qsum in *; cbn [fold_right]; [reflexivity|rewrite IH; reflexivity|ring|rewrite E1; exact E2].
Qed.
Lemma qsum_scale : forall c l, qsum (map (fun x => c * x) l) == c * qsum l.
Proof. intros c l. unfold qsum. induction l as [|x l IH]; cbn [map fold_right]; [ring|rewrite IH; ring]. Qed.
Lemma sq_scale : forall c l, sq (map (fun x => c * x) l) == c * c * sq l.
Proof. intros c l. unfold sq, qsum. induction l as [|x l IH]; cbn [map fold_right]; [ring|rewrite IH; ring]. Qed.
Lemma all_ok_in : forall l vs, all_ok l = Ok vs -> length vs = length l /\ forall i, (i < length l)%nat -> nth i l (Raise ValueError) = Ok (nth i vs None).
Proof.
  induction l as [|a l IH]; intros vs H; cbn [all_ok] in H; [injection H as <-; split; [reflexivity|cbn; intros; lia]|].
  destruct a as [v|e]; cbn [bind] in H; [|discriminate]. destruct (all_ok l) as [ws|e]; cbn [bind] in H; [|discriminate]. injection H as <-.
  destruct (IH ws eq_refl) as [L N]. split; [cbn; lia|]. intros [|i] I; cbn [nth length] in *; [reflexivity|]. apply N. lia.
Qed.
