(** Proofs about the virtual writer. *)
From Coq Require Import List ZArith Bool QArith Lia Permutation.
From Verif Require Import M_Py M_Virt S_Virt.
Import ListNotations.
Open Scope Z_scope.

Definition sized (l : list dset) : Prop := (forall e, In e l -> bls e <> [] /\ chans e <> 0%nat) /\ (forall e e', In e l -> In e' l -> length (bls e) = length (bls e') /\ chans e = chans e').
Lemma accept_iff : forall l d, sized l -> accept l d = true <-> fits l d.
Proof.
  intros l d [A B]. unfold accept, fits. destruct (existsb (fun e => Qeq_bool (jd d) (jd e)) l) eqn:X.
  - split; [discriminate|]. intro F. apply existsb_exists in X. destruct X as (e & I & Q0). apply Qeq_bool_iff in Q0. exfalso. exact (proj1 (F e I) Q0).
  - assert (N : forall e, In e l -> ~ (jd d == jd e)%Q).
    { intros e I Q0. apply Qeq_bool_iff in Q0. assert (T : existsb (fun e => Qeq_bool (jd d) (jd e)) l = true) by (apply existsb_exists; exists e; tauto). congruence. }
    destruct l as [|f l]; [split; [intros _ e []|reflexivity]|]. destruct (A f (or_introl eq_refl)) as [F1 F2].
    destruct (Nat.eqb_spec (length (bls f)) 0) as [E|E]; [apply length_zero_iff_nil in E; congruence|]. destruct (Nat.eqb_spec (chans f) 0); [congruence|]. cbn [negb andb].
    destruct (Nat.eqb_spec (length (bls d)) (length (bls f))) as [G|G]; cbn [negb].
    + destruct (Nat.eqb_spec (chans d) (chans f)) as [K|K]; cbn [negb].
      * split; [|reflexivity]. intros _ e I. destruct (B f e (or_introl eq_refl) I). split; [apply N; exact I|]. split; congruence.
      * split; [discriminate|]. intro F. destruct (F f (or_introl eq_refl)) as (_ & _ & H). congruence.
    + split; [discriminate|]. intro F. destruct (F f (or_introl eq_refl)) as (_ & H & _). congruence.
Qed.
Lemma holds_inv : forall w, holds w -> sized w /\ forall i j d e, nth_error w i = Some d -> nth_error w j = Some e -> i <> j -> ~ (jd d == jd e)%Q.
Proof.
  intros w H. induction H as [|w d w' H [IS IJ] B C A].
  - split; [split; [intros e []|intros e e' []]|]. intros i j d e I. destruct i; discriminate.
  - unfold add in A. destruct (accept w d) eqn:X; [|discriminate]. injection A as <-. apply (accept_iff w d IS) in X. unfold fits in X. destruct IS as [S1 S2]. split; [split|].
    + intros e I. apply in_app_or in I. destruct I as [I|[<-|[]]]; [apply S1; exact I|tauto].
    + intros e e' I I'. apply in_app_or in I, I'. destruct I as [I|[<-|[]]]; destruct I' as [I'|[<-|[]]]; [apply S2; assumption|destruct (X e I) as (_ & P & Q0); split; congruence|destruct (X e' I') as (_ & P & Q0); split; congruence|tauto].
    + intros i j a b I J N. assert (Hn : forall k y, nth_error (w ++ [d]) k = Some y -> nth_error w k = Some y \/ (k = length w /\ y = d)).
      { intros k y K. destruct (Nat.lt_ge_cases k (length w)); [rewrite nth_error_app1 in K by assumption; tauto|]. rewrite nth_error_app2 in K by assumption. destruct (k - length w)%nat as [|q] eqn:E; [injection K as <-; right; split; [lia|reflexivity]|destruct q; discriminate]. }
      apply Hn in I, J. destruct I as [I|[I ->]]; destruct J as [J|[J ->]].
      * exact (IJ i j a b I J N).
      * intro Q0. apply (proj1 (X a (nth_error_In _ _ I))). symmetry. exact Q0.
      * exact (proj1 (X b (nth_error_In _ _ J))).
      * lia.
Qed.
Lemma in_objs : forall w p e, In e (objs w p) <-> exists j, In j p /\ nth_error w j = Some e.
Proof.
  intros w p e. unfold objs. rewrite in_flat_map. split; intros (j & I & H); exists j; (split; [exact I|]).
  - destruct (nth_error w j); [destruct H as [<-|[]]; reflexivity|destruct H].
  - rewrite H. left. reflexivity.
Qed.
Definition place_of (s : Z) : nat := Z.to_nat (s - 1).
Lemma pick_ok : forall w sets acc, holds w -> (forall s, In s sets -> 1 <= s <= Z.of_nat (length w)) -> NoDup (acc ++ map place_of sets) -> pick w acc sets = Ok (acc ++ map place_of sets).
Proof.
  intros w sets. induction sets as [|s r IH]; intros acc H R N; [cbn; rewrite app_nil_r; reflexivity|]. assert (Rs : 1 <= s <= Z.of_nat (length w)) by (apply R; left; reflexivity). cbn [pick map].
  destruct (Z.ltb_spec (s - 1) 0); [lia|]. destruct (Z.ltb_spec (s - 1) 0); [lia|]. fold (place_of s). destruct (nth_error w (place_of s)) as [d|] eqn:D; [|apply nth_error_None in D; unfold place_of in D; lia].
  destruct (holds_inv w H) as [[S1 S2] J]. assert (Z0 : sized (objs w acc)).
  { split; [intros e I; apply in_objs in I; destruct I as (j & _ & E); apply S1; eapply nth_error_In; exact E|]. intros e e' I I'. apply in_objs in I, I'. destruct I as (j & _ & E). destruct I' as (j' & _ & E'). apply S2; eapply nth_error_In; eassumption. }
  assert (A : accept (objs w acc) d = true).
  { apply accept_iff; [exact Z0|]. intros e I. apply in_objs in I. destruct I as (j & Ij & E). split; [|apply S2; eapply nth_error_In; eassumption]. apply (J (place_of s) j d e D E). intros <-.
    cbn [map] in N. apply NoDup_remove_2 in N. apply N. apply in_or_app. left. exact Ij. }
  rewrite A. rewrite IH; [rewrite <- app_assoc; reflexivity|exact H|intros x X; apply R; right; exact X|rewrite <- app_assoc; exact N].
Qed.
Lemma insert_t_perm : forall w x l, Permutation (x :: l) (insert_t w x l).
Proof. intros w x l. induction l as [|y l IH]; [reflexivity|]. cbn [insert_t]. destruct (Qle_bool (time w x) (time w y)); [reflexivity|]. rewrite perm_swap. constructor. exact IH. Qed.
Lemma sort_t_perm : forall w l, Permutation l (sort_t w l).
Proof. intros w l. induction l as [|x l IH]; [reflexivity|]. cbn [sort_t fold_right]. fold (sort_t w l). rewrite <- insert_t_perm. constructor. exact IH. Qed.
Fixpoint timed (w : list dset) (l : list nat) : Prop := match l with a :: ((b :: _) as r) => (time w a <= time w b)%Q /\ timed w r | _ => True end.
Lemma Qle_bool_total : forall a b, Qle_bool a b = false -> (b <= a)%Q.
Proof. intros a b H. destruct (Qlt_le_dec a b) as [L|L]; [|exact L]. apply Qlt_le_weak in L. apply Qle_bool_iff in L. congruence. Qed.
Lemma insert_t_timed : forall w x l, timed w l -> timed w (insert_t w x l).
Proof.
  intros w x l. induction l as [|y l IH]; intro T; [exact Logic.I|]. cbn [insert_t]. destruct (Qle_bool (time w x) (time w y)) eqn:E; [split; [apply Qle_bool_iff; exact E|exact T]|].
  apply Qle_bool_total in E. destruct l as [|z l]; [cbn; tauto|]. destruct T as [T1 T2]. specialize (IH T2). cbn [insert_t] in *. destruct (Qle_bool (time w x) (time w z)); split; assumption.
Qed.
Lemma sort_t_timed : forall w l, timed w (sort_t w l).
Proof. intros w l. induction l as [|x l IH]; [exact Logic.I|]. apply insert_t_timed. exact IH. Qed.
Lemma timed_in_time : forall w l, (forall j, In j l -> (j < length w)%nat) -> timed w l -> in_time w l.
Proof.
  intros w l. induction l as [|a l IH]; intros R T; [exact Logic.I|]. destruct l as [|b l]; [exact Logic.I|]. destruct T as [T1 T2]. split; [|apply IH; [intros j J; apply R; right; exact J|exact T2]].
  unfold time in T1. destruct (nth_error w a) as [d|] eqn:A; [|apply nth_error_None in A; specialize (R a (or_introl eq_refl)); lia]. destruct (nth_error w b) as [e|] eqn:B; [|apply nth_error_None in B; specialize (R b (or_intror (or_introl eq_refl))); lia]. exists d, e. tauto.
Qed.
Lemma insert_z_perm : forall x l, Permutation (x :: l) (insert_z x l).
Proof. intros x l. induction l as [|y l IH]; [reflexivity|]. cbn [insert_z]. destruct (x <=? y); [reflexivity|]. rewrite perm_swap. constructor. exact IH. Qed.
Lemma sort_z_perm : forall l, Permutation l (sort_z l).
Proof. intro l. induction l as [|x l IH]; [reflexivity|]. cbn [sort_z fold_right]. fold (sort_z l). rewrite <- insert_z_perm. constructor. exact IH. Qed.
Lemma insert_z_asc : forall x l, ascending l -> ascending (insert_z x l).
Proof.
  intros x l. induction l as [|y l IH]; intro T; [exact Logic.I|]. cbn [insert_z]. destruct (Z.leb_spec x y); [split; assumption|]. destruct l as [|z l]; [cbn; split; [lia|exact Logic.I]|]. destruct T as [T1 T2]. specialize (IH T2). cbn [insert_z] in *. destruct (x <=? z); split; try assumption; lia.
Qed.
Lemma sort_z_asc : forall l, ascending (sort_z l).
Proof. intro l. induction l as [|x l IH]; [exact Logic.I|]. apply insert_z_asc. exact IH. Qed.
Lemma tidy_nth : forall w k p j, nth_error (tidy_from k p w) j = match nth_error w j with Some d => Some (if existsb (Nat.eqb (k + j)) p then mkD (jd d) (sort_z (bls d)) (chans d) else d) | None => None end.
Proof.
  intro w. induction w as [|d w IH]; intros k p j; [destruct j; reflexivity|]. destruct j as [|j]; cbn [tidy_from nth_error]; [rewrite Nat.add_0_r; reflexivity|]. rewrite IH. rewrite Nat.add_succ_r. reflexivity.
Qed.
Lemma pick_app : forall w a acc b, pick w acc (a ++ b) = bind (pick w acc a) (fun acc => pick w acc b).
Proof.
  intros w a. induction a as [|s a IH]; intros acc b; [reflexivity|]. cbn [app pick]. destruct ((if s - 1 <? 0 then s - 1 + Z.of_nat (length w) else s - 1) <? 0); [reflexivity|]. destruct (nth_error w _) as [d|]; [|reflexivity]. destruct (accept (objs w acc) d); [apply IH|reflexivity].
Qed.
