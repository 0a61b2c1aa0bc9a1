(** Order, sums and medians of lists of rationals. *)
From Coq Require Import List ZArith QArith Qcanon Qcabs Bool Arith Lia Lqa Permutation Sorted.
From Verif Require Import M_Robust S_Robust.
Import ListNotations.
Open Scope Qc_scope.

Ltac qc_eqs := repeat match goal with H : @eq Qc ?x ?y |- _ => let N := fresh in assert (N : this x == this y) by (rewrite H; reflexivity); clear H end.
Ltac qc_down := unfold dec, sq, qn in *; unfold Qcle, Qclt, Qcminus, Qcplus, Qcopp, Qcmult in *; cbn [this Q2Qc] in *; rewrite ?Qred_correct in *.
Ltac qcl := intros; try apply Qc_is_canon; qc_eqs; qc_down; lra.
Ltac qcn := intros; try apply Qc_is_canon; qc_eqs; qc_down; nra.

Lemma qle_true a b : qle a b = true <-> a <= b. Proof. unfold qle. apply Qle_bool_iff. Qed.
Lemma qle_false a b : qle a b = false <-> b < a.
Proof.
  unfold qle. split.
  - intro H. apply Qcnot_le_lt. intro L. apply Qle_bool_iff in L. congruence.
  - intro L. destruct (Qle_bool a b) eqn:E; [|reflexivity]. apply Qle_bool_iff in E. exfalso. unfold Qclt in L. lra.
Qed.
Lemma qlt_true a b : qlt a b = true <-> a < b. Proof. unfold qlt. rewrite negb_true_iff. apply (qle_false b a). Qed.
Lemma qlt_false a b : qlt a b = false <-> b <= a. Proof. unfold qlt. rewrite negb_false_iff. apply (qle_true b a). Qed.

Lemma qle_antisym a b : a <= b -> b <= a -> a = b. Proof. intros. apply Qcle_antisym; assumption. Qed.

(** Sorting *)
Definition sorted (l : list Qc) : Prop := StronglySorted Qcle l.
Lemma insert_perm x l : Permutation (x :: l) (insert x l).
Proof. induction l as [|y l IH]; cbn; [reflexivity|]. destruct (qle x y); [reflexivity|]. rewrite perm_swap, IH. reflexivity. Qed.
Lemma sort_perm l : Permutation l (sort l).
Proof. induction l as [|x l IH]; cbn; [reflexivity|]. rewrite <- insert_perm, <- IH. reflexivity. Qed.
Lemma insert_sorted x l : sorted l -> sorted (insert x l).
Proof.
  unfold sorted. induction 1 as [|y l H IH F]; cbn; [repeat constructor|].
  destruct (qle x y) eqn:E.
  - apply qle_true in E. constructor; [constructor; assumption|]. constructor; [exact E|].
    eapply Forall_impl; [|exact F]. cbn. intros a Ha. exact (Qcle_trans _ _ _ E Ha).
  - apply qle_false in E. constructor; [exact IH|]. rewrite Forall_forall. intros a Ha.
    eapply Permutation_in in Ha; [|symmetry; apply insert_perm]. destruct Ha as [<-|Ha]; [apply Qclt_le_weak; exact E|].
    rewrite Forall_forall in F. apply F, Ha.
Qed.
Lemma sort_sorted l : sorted (sort l). Proof. induction l; cbn; [constructor|apply insert_sorted; assumption]. Qed.
Lemma sort_length l : length (sort l) = length l. Proof. symmetry. apply Permutation_length, sort_perm. Qed.
Lemma sorted_unique l : forall m, sorted l -> sorted m -> Permutation l m -> l = m.
Proof.
  induction l as [|x l IH]; intros m Sl Sm P.
  - apply Permutation_nil in P. congruence.
  - destruct m as [|y m]; [apply Permutation_sym, Permutation_nil in P; discriminate|].
    inversion Sl as [|? ? Sl' Fl]; inversion Sm as [|? ? Sm' Fm]; subst.
    assert (x = y).
    { assert (Ix : In x (y :: m)) by (eapply Permutation_in; [exact P|left; reflexivity]).
      assert (Iy : In y (x :: l)) by (eapply Permutation_in; [symmetry; exact P|left; reflexivity]).
      rewrite Forall_forall in Fl, Fm.
      destruct Ix as [->|Ix]; [reflexivity|]. destruct Iy as [->|Iy]; [reflexivity|].
      apply qle_antisym; [apply Fl, Iy|apply Fm, Ix]. }
    subst y. f_equal. apply IH; try assumption. eapply Permutation_cons_inv; exact P.
Qed.
Lemma sort_of_perm l m : Permutation l m -> sort l = sort m.
Proof.
  intro P. apply sorted_unique; try apply sort_sorted. rewrite <- (sort_perm l), P. apply sort_perm.
Qed.
Lemma sort_of_sorted l : sorted l -> sort l = l.
Proof. intro S. apply sorted_unique; [apply sort_sorted|exact S|symmetry; apply sort_perm]. Qed.
(** A monotone function commutes with sorting. *)
Lemma sort_map f l : (forall x y, x <= y -> f x <= f y) -> sort (map f l) = map f (sort l).
Proof.
  intro M. apply sorted_unique.
  - apply sort_sorted.
  - generalize (sort_sorted l). unfold sorted. induction 1 as [|y s H IH F]; cbn; constructor; [exact IH|].
    rewrite Forall_forall in *. intros a Ha. apply in_map_iff in Ha. destruct Ha as (b & <- & Hb). apply M, F, Hb.
  - rewrite <- (sort_perm (map f l)). apply Permutation_map, sort_perm.
Qed.
Lemma sorted_item l i j : sorted l -> (i <= j < length l)%nat -> item l i <= item l j.
Proof.
  unfold sorted, item. intros S. revert i j. induction S as [|y s H IH F]; intros i j Hij; cbn in Hij; [lia|].
  destruct i as [|i], j as [|j]; cbn; try lia.
  - apply Qcle_refl.
  - rewrite Forall_forall in F. apply F, nth_In. lia.
  - apply IH. lia.
Qed.

(** Counting *)
Definition count (p : Qc -> bool) (l : list Qc) : nat := length (filter p l).
Lemma count_perm p l m : Permutation l m -> count p l = count p m.
Proof.
  unfold count. induction 1; cbn; try congruence.
  - destruct (p x); cbn; congruence.
  - destruct (p x), (p y); reflexivity.
Qed.
Lemma count_le p l : (count p l <= length l)%nat.
Proof. unfold count. induction l; cbn; [lia|]. destruct (p a); cbn; lia. Qed.
Lemma count_impl p q l : (forall x, In x l -> p x = true -> q x = true) -> (count p l <= count q l)%nat.
Proof.
  unfold count. induction l as [|x l IH]; intro H; cbn; [lia|].
  assert (IH' := IH (fun y Hy => H y (or_intror Hy))). specialize (H x (or_introl eq_refl)).
  destruct (p x); [rewrite H by reflexivity; cbn; lia|]. destruct (q x); cbn; lia.
Qed.
Lemma count_split p l : (count p l + count (fun x => negb (p x)) l = length l)%nat.
Proof. unfold count. induction l as [|x l IH]; cbn; [reflexivity|]. destruct (p x); cbn; lia. Qed.
Lemma count_map p f l : count p (map f l) = count (fun x => p (f x)) l.
Proof. unfold count. induction l as [|x l IH]; cbn; [reflexivity|]. destruct (p (f x)); cbn; lia. Qed.
Lemma count_ext p q l : (forall x, p x = q x) -> count p l = count q l.
Proof. intro H. unfold count. induction l as [|x l IH]; cbn; [reflexivity|]. rewrite H. destruct (q x); cbn; lia. Qed.
Lemma inside_count a b l : inside a b l = count (fun x => qle a x && qle x b) l.
Proof.
  induction l as [|x l IH]; [reflexivity|]. cbn [inside]. unfold count. cbn [filter].
  destruct (Qclt_le_dec x a) as [H|H].
  - apply qle_false in H. rewrite H. cbn. exact IH.
  - apply qle_true in H. rewrite H. destruct (Qclt_le_dec b x) as [K|K].
    + apply qle_false in K. rewrite K. cbn. exact IH.
    + apply qle_true in K. rewrite K. cbn. f_equal. exact IH.
Qed.

(** Order statistics *)
Lemma down_count p s i : sorted s -> (i < length s)%nat -> (forall x y, x <= y -> p y = true -> p x = true) ->
  (p (item s i) = true <-> (i < count p s)%nat).
Proof.
  intros S Hi D. unfold sorted, item, count in *. revert i Hi. induction S as [|y s H IH F]; intros i Hi; cbn in Hi; [lia|].
  cbn [filter]. destruct (p y) eqn:Ey.
  - destruct i as [|i]; cbn; [split; [lia|intros _; exact Ey]|]. rewrite IH by lia. lia.
  - assert (Z : filter p s = []).
    { clear IH Hi. induction s as [|z s IHs]; [reflexivity|]. cbn. inversion F; subst.
      destruct (p z) eqn:Ez; [rewrite (D y z) in Ey by assumption; discriminate|]. inversion H; subst. apply IHs; assumption. }
    rewrite Z. cbn. split; [|lia]. intro P. exfalso.
    destruct i as [|i]; cbn in P; [congruence|]. rewrite (D y (nth i s 0)) in Ey; [discriminate| |exact P].
    rewrite Forall_forall in F. apply F, nth_In. lia.
Qed.
Lemma up_count p s i : sorted s -> (i < length s)%nat -> (forall x y, x <= y -> p x = true -> p y = true) ->
  (p (item s i) = true <-> (length s - i <= count p s)%nat).
Proof.
  intros S Hi U. assert (D := down_count (fun x => negb (p x)) s i S Hi). cbn in D.
  assert (K := count_split p s).
  rewrite negb_true_iff in D.
  assert (E : p (item s i) = false <-> (i < count (fun x => negb (p x)) s)%nat).
  { apply D. intros x y L E. apply negb_true_iff in E. apply negb_true_iff. destruct (p x) eqn:Ex; [|reflexivity].
    rewrite (U x y L Ex) in E. discriminate. }
  destruct (p (item s i)); split; intro; try reflexivity; try discriminate; destruct E as [E1 E2].
  - destruct (le_lt_dec (length s - i) (count p s)) as [|B]; [assumption|]. exfalso.
    assert (true = false) by (apply E2; lia). discriminate.
  - exfalso. specialize (E1 eq_refl). lia.
Qed.

Lemma half_eq x : x / qn 2 = dec 1 2 * x.
Proof. unfold Qcdiv. rewrite Qcmult_comm. f_equal. Qed.
(** The median lies between the two middle elements. *)
Lemma half_of n : (n <> 0 -> (n - 1) / 2 < n /\ n / 2 < n)%nat.
Proof. intro H. split; apply Nat.div_lt_upper_bound; lia. Qed.
Lemma median_mid l m : median l = Some m ->
  l <> [] /\ m = (item (sort l) ((length l - 1) / 2) + item (sort l) (length l / 2)) / qn 2.
Proof.
  unfold median. rewrite sort_length. destruct (length l) as [|n] eqn:E; [discriminate|].
  intro H. split; [intros ->; discriminate|].
  pose proof (f_equal (fun o => match o with Some v => v | None => m end) H) as H'. cbv beta iota in H'. subst m. clear H.
  set (s := sort l). clearbody s. destruct (Nat.odd (S n)) eqn:O.
  - replace ((S n - 1) / 2)%nat with (S n / 2)%nat.
    + rewrite half_eq. generalize (item s (S n / 2)). clear. qcl.
    + apply Nat.odd_spec in O. destruct O as [k Hk]. rewrite Hk. rewrite Nat.add_sub.
      rewrite (Nat.mul_comm 2 k), Nat.div_add_l, Nat.div_mul by lia. cbn. lia.
  - replace ((S n - 1) / 2)%nat with (S n / 2 - 1)%nat; [reflexivity|].
    assert (V : Nat.even (S n) = true) by (rewrite <- Nat.negb_odd, O; reflexivity).
    apply Nat.even_spec in V. destruct V as [k Hk]. rewrite Hk.
    rewrite (Nat.mul_comm 2 k), Nat.div_mul by lia. apply (Nat.div_unique _ _ _ 1); lia.
Qed.
Lemma median_exists l : l <> [] -> exists m, median l = Some m.
Proof. intro H. unfold median. rewrite sort_length. destruct l; [congruence|]. cbn [length]. eexists. reflexivity. Qed.
Lemma median_perm l m : Permutation l m -> median l = median m.
Proof. intro P. unfold median. rewrite (sort_of_perm l m P). reflexivity. Qed.
Lemma two_half x y z : x <= y -> y <= z -> x <= (y + z) / qn 2 /\ y <= (y + z) / qn 2 /\ (y + z) / qn 2 <= z.
Proof.
  intros. rewrite half_eq. repeat split; qcl.
Qed.

(** At least half of the numbers are not above the median, at least half not below. *)
Lemma below_median l m : median l = Some m -> ((length l + 1) / 2 <= count (fun x => qle x m) l)%nat.
Proof.
  intro H. apply median_mid in H. destruct H as [N E].
  assert (Hl : (length l <> 0)%nat) by (destruct l; [congruence|discriminate]).
  rewrite (count_perm _ _ _ (sort_perm l)).
  assert (B := half_of _ Hl).
  assert (I : qle (item (sort l) ((length l - 1) / 2)) m = true).
  { apply qle_true. rewrite E.
    assert (L : item (sort l) ((length l - 1) / 2) <= item (sort l) (length l / 2)).
    { apply sorted_item; [apply sort_sorted|]. rewrite sort_length. split; [apply Nat.div_le_mono; lia|lia]. }
    destruct (two_half _ _ _ (Qcle_refl _) L) as (A & _). exact A. }
  apply (down_count (fun x => qle x m)) in I; [|apply sort_sorted|rewrite sort_length; lia|].
  - replace ((length l + 1) / 2)%nat with (S ((length l - 1) / 2))%nat; [exact I|].
    replace (length l + 1)%nat with (length l - 1 + 1 * 2)%nat by lia. rewrite Nat.div_add by lia. lia.
  - intros x y L. rewrite !qle_true. intro. eapply Qcle_trans; eassumption.
Qed.
Lemma above_median l m : median l = Some m -> ((length l + 1) / 2 <= count (fun x => qle m x) l)%nat.
Proof.
  intro H. apply median_mid in H. destruct H as [N E].
  assert (Hl : (length l <> 0)%nat) by (destruct l; [congruence|discriminate]).
  rewrite (count_perm _ _ _ (sort_perm l)).
  assert (B := half_of _ Hl).
  assert (I : qle m (item (sort l) (length l / 2)) = true).
  { apply qle_true. rewrite E.
    assert (L : item (sort l) ((length l - 1) / 2) <= item (sort l) (length l / 2)).
    { apply sorted_item; [apply sort_sorted|]. rewrite sort_length. split; [apply Nat.div_le_mono; lia|lia]. }
    destruct (two_half _ _ _ (Qcle_refl _) L) as (_ & _ & A). exact A. }
  apply (up_count (fun x => qle m x)) in I; [|apply sort_sorted|rewrite sort_length; lia|].
  - rewrite sort_length in I. etransitivity; [|exact I].
    assert (P := Nat.div_mod (length l) 2 ltac:(lia)). assert (Q := Nat.div_mod (length l + 1) 2 ltac:(lia)).
    assert (Nat.modulo (length l) 2 < 2)%nat by (apply Nat.mod_upper_bound; lia). lia.
  - intros x y L. rewrite !qle_true. intro. eapply Qcle_trans; eassumption.
Qed.
(** With most numbers between a and b the median is there. *)
Lemma median_most a b l m : most a b l -> median l = Some m -> a <= m <= b.
Proof.
  unfold most. rewrite inside_count. intros M H.
  assert (U := above_median l m H). assert (D := below_median l m H).
  assert (P := Nat.div_mod (length l + 1) 2 ltac:(lia)).
  assert (Nat.modulo (length l + 1) 2 < 2)%nat by (apply Nat.mod_upper_bound; lia).
  split.
  - destruct (Qclt_le_dec m a) as [L|]; [|assumption]. exfalso.
    assert (K : (count (fun x => qle x m) l <= count (fun x => negb (qle a x && qle x b)) l)%nat).
    { apply count_impl. intros x _ Hx. apply qle_true in Hx. apply negb_true_iff. apply andb_false_iff. left.
      apply qle_false. eapply Qcle_lt_trans; eassumption. }
    assert (S := count_split (fun x => qle a x && qle x b) l). lia.
  - destruct (Qclt_le_dec b m) as [L|]; [|assumption]. exfalso.
    assert (K : (count (fun x => qle m x) l <= count (fun x => negb (qle a x && qle x b)) l)%nat).
    { apply count_impl. intros x _ Hx. apply qle_true in Hx. apply negb_true_iff. apply andb_false_iff. right.
      apply qle_false. eapply Qclt_le_trans; eassumption. }
    assert (S := count_split (fun x => qle a x && qle x b) l). lia.
Qed.
