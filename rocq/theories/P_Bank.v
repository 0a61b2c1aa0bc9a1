(** Proofs about the filter bank. *)
From Coq Require Import List Bool QArith Lia Lqa.
From Verif Require Import M_Py M_Bank S_Bank.
Import ListNotations.
Open Scope nat_scope.

Lemma total_ext : forall n f g, (forall i, i < n -> (f i == g i)%Q) -> (total n f == total n g)%Q.
Proof. induction n as [|n IH]; intros f g H; [reflexivity|]. cbn [total]. rewrite (IH f g) by (intros; apply H; lia). rewrite (H n) by lia. reflexivity. Qed.
Lemma total_add : forall n f g, (total n (fun i => f i + g i) == total n f + total n g)%Q.
Proof. induction n as [|n IH]; intros f g; [reflexivity|]. cbn [total]. rewrite IH. ring. Qed.
Lemma total_zero : forall n f, (forall i, i < n -> (f i == 0)%Q) -> (total n f == 0)%Q.
Proof. induction n as [|n IH]; intros f H; [reflexivity|]. cbn [total]. rewrite IH by (intros; apply H; lia). rewrite (H n) by lia. reflexivity. Qed.
Lemma fold_total : forall n f, (fold_right Qplus 0 (map f (seq 0 n)) == total n f)%Q.
Proof.
  assert (A : forall l a, (fold_right Qplus 0 (l ++ [a]) == fold_right Qplus 0 l + a)%Q) by (induction l as [|x l IH]; intro a; cbn [app fold_right]; [ring|rewrite IH; ring]).
  induction n as [|n IH]; intro f; [reflexivity|]. rewrite seq_S, map_app. cbn [map plus]. rewrite A, IH. reflexivity.
Qed.
Lemma zip_add_length : forall a b, length a = length b -> length (zip_add a b) = length a.
Proof. induction a as [|x a IH]; intros [|y b] H; try discriminate; [reflexivity|]. cbn [zip_add length]. rewrite IH; [reflexivity|]. injection H as H. exact H. Qed.
Lemma zip_add_nth : forall a b k, length a = length b -> (nth k (zip_add a b) 0 == nth k a 0 + nth k b 0)%Q.
Proof. induction a as [|x a IH]; intros [|y b] k H; try discriminate; [destruct k; cbn; ring|]. destruct k as [|k]; cbn [zip_add nth]; [reflexivity|]. apply IH. injection H as H. exact H. Qed.
Lemma nth_slice : forall (x : list Q) s n j, j < n -> nth j (firstn n (skipn s x)) 0%Q = nth (s + j) x 0%Q.
Proof.
  intros x s n j J. assert (F : forall (l : list Q) m k, k < m -> nth k (firstn m l) 0%Q = nth k l 0%Q) by (induction l as [|a l IH]; intros [|m] [|k] H; try lia; try reflexivity; cbn [firstn nth]; apply IH; lia).
  rewrite F by exact J. revert x. induction s as [|s IH]; intro x; [reflexivity|]. destruct x as [|a x]; [destruct j; reflexivity|]. cbn [skipn plus nth]. apply IH.
Qed.
Section Bank.
  Variable weight : nat -> Q.
  Variable factor : nat -> nat -> Q.
  Lemma dft_ok : forall x n, length x = n -> 0 < n -> exists t, dft factor x = Ok t /\ length t = n /\ forall k, k < n -> (nth k t 0 == total n (fun j => nth j x 0 * factor k j))%Q.
  Proof.
    intros x n L N. unfold dft. destruct x as [|a x]; [cbn in L; lia|]. rewrite L. eexists. split; [reflexivity|]. split; [rewrite map_length, seq_length; reflexivity|]. intros k K.
    set (f := fun k : nat => fold_right Qplus 0%Q (map (fun j : nat => (nth j (a :: x) 0 * factor k j)%Q) (seq 0 n))). rewrite (nth_indep _ 0%Q (f 0)) by (rewrite map_length, seq_length; exact K). rewrite map_nth, seq_nth by exact K. cbn [plus]. apply fold_total.
  Qed.
  Lemma taps_ok : forall x n p, 0 < n -> length x = n * p -> forall c a out, a + c = p ->
    (match out with Some o => a <> 0 /\ length o = n /\ forall k, k < n -> (nth k o 0 == total n (fun j => total a (fun i => nth (i * n + j) x 0) * factor k j))%Q | None => a = 0 end) -> 0 < p ->
    exists o, taps factor x n (seq a c) out = Ok o /\ length o = n /\ forall k, k < n -> (nth k o 0 == total n (fun j => total p (fun i => nth (i * n + j)%nat x 0) * factor k j))%Q.
  Proof.
    intros x n p N L. induction c as [|c IH]; intros a out A I P.
    - cbn [seq taps]. destruct out as [o|]; [|lia]. exists o. replace p with a by lia. tauto.
    - cbn [seq taps]. destruct (dft_ok (firstn n (skipn (a * n) x)) n) as (t & T & Lt & Nt); [rewrite firstn_length, skipn_length, L; nia|exact N|]. rewrite T. cbn [bind]. apply IH; [lia| |exact P].
      assert (V : forall k, k < n -> (nth k t 0 == total n (fun j => nth (a * n + j)%nat x 0 * factor k j))%Q) by (intros k K; rewrite (Nt k K); apply total_ext; intros j J; rewrite nth_slice by exact J; reflexivity).
      destruct out as [o|].
      + destruct I as (_ & Lo & No). split; [lia|]. split; [rewrite zip_add_length; congruence|]. intros k K. rewrite zip_add_nth by congruence. rewrite (No k K), (V k K), <- total_add. apply total_ext. intros j _. cbn [total]. ring.
      + subst a. split; [lia|]. split; [exact Lt|]. intros k K. rewrite (V k K). apply total_ext. intros j _. cbn [total]. ring.
  Qed.
  Lemma fft_of : forall x n p signal, 0 < n -> 0 < p -> weigh weight signal (n * p) = Ok x -> length x = n * p ->
    exists o, fft weight factor signal n p = Ok o /\ length o = n /\ forall k, k < n -> (nth k o 0 == total n (fun j => total p (fun i => nth (i * n + j)%nat x 0) * factor k j))%Q.
  Proof. intros x n p signal N P W L. unfold fft. rewrite W. cbn [bind]. apply (taps_ok x n p N L p 0 None); [reflexivity|reflexivity|exact P]. Qed.
End Bank.
