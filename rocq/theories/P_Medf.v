(** Proofs about the median filter of the background. *)
From Coq Require Import List ZArith Bool QArith Lia Lqa Permutation Sorted.
From Verif Require Import M_Num P_Num M_Medf S_Medf.
Import ListNotations.
Open Scope Z_scope.

Lemma qle_false : forall a b, Qle_bool a b = false -> (b <= a)%Q.
Proof. intros a b H. destruct (Qlt_le_dec a b) as [L|L]; [|exact L]. apply Qlt_le_weak in L. apply Qle_bool_iff in L. congruence. Qed.
Lemma insert_q_perm : forall x l, Permutation (x :: l) (insert_q x l).
Proof. intros x l. induction l as [|y l IH]; [reflexivity|]. cbn [insert_q]. destruct (Qle_bool x y); [reflexivity|]. rewrite perm_swap. constructor. exact IH. Qed.
Lemma sort_q_perm : forall l, Permutation l (sort_q l).
Proof. intro l. induction l as [|x l IH]; [reflexivity|]. cbn [sort_q fold_right]. fold (sort_q l). rewrite <- insert_q_perm. constructor. exact IH. Qed.
Lemma insert_q_sorted : forall x l, StronglySorted Qle l -> StronglySorted Qle (insert_q x l).
Proof.
  intros x l H. induction H as [|y l H IH F]; [repeat constructor|]. cbn [insert_q]. destruct (Qle_bool x y) eqn:E.
  - apply Qle_bool_iff in E. constructor; [constructor; assumption|]. constructor; [exact E|]. eapply Forall_impl; [|exact F]. intros z Z0. eapply Qle_trans; eassumption.
  - apply qle_false in E. constructor; [exact IH|]. apply (Permutation_Forall (insert_q_perm x l)). constructor; assumption.
Qed.
Lemma sort_q_sorted : forall l, StronglySorted Qle (sort_q l).
Proof. intro l. induction l as [|x l IH]; [constructor|]. apply insert_q_sorted. exact IH. Qed.
Definition tally (f : Q -> bool) (l : list Q) : nat := length (filter f l).
Lemma tally_perm : forall f l l', Permutation l l' -> tally f l = tally f l'.
Proof. intros f l l' P. unfold tally. induction P as [|x l l' P IH|x y l|l l' l'' P1 IH1 P2 IH2]; cbn [filter]; [reflexivity|destruct (f x); cbn [length]; congruence|destruct (f x); destruct (f y); reflexivity|congruence]. Qed.
Lemma sorted_nine : forall l, length l = 9%nat -> StronglySorted Qle l -> (5 <= tally (fun x => Qle_bool x (nth 4 l 0%Q)) l)%nat /\ (5 <= tally (fun x => Qle_bool (nth 4 l 0%Q) x) l)%nat.
Proof.
  intros l L S0. do 9 (destruct l as [|? l]; [discriminate|]). destruct l; [|discriminate]. cbn [nth].
  repeat match goal with H : StronglySorted _ (_ :: _) |- _ => inversion H; clear H; subst | H : Forall _ (_ :: _) |- _ => inversion H; clear H; subst end.
  assert (T : forall a b, (a <= b)%Q -> Qle_bool a b = true) by (intros a b; apply Qle_bool_iff). assert (Rf : forall a, Qle_bool a a = true) by (intro a; apply T; apply Qle_refl).
  unfold tally. split; cbn [filter]; rewrite ?Rf; repeat match goal with H : (?a <= ?b)%Q |- context [Qle_bool ?a ?b] => rewrite (T a b H) end; repeat match goal with |- context [if Qle_bool ?a ?b then _ else _] => destruct (Qle_bool a b) end; cbn [length]; lia.
Qed.
Lemma median_spec : forall l, length l = 9%nat -> let v := nth 4 (sort_q l) 0%Q in (5 <= tally (fun x => Qle_bool x v) l)%nat /\ (5 <= tally (fun x => Qle_bool v x) l)%nat.
Proof.
  intros l L v. pose proof (sort_q_perm l) as P. rewrite !(tally_perm _ _ _ P). apply sorted_nine; [rewrite <- (Permutation_length P); exact L|apply sort_q_sorted].
Qed.
(** Two properties that five of nine have each meet. *)
Lemma tally_meet : forall f g l, (length l < tally f l + tally g l)%nat -> exists x, In x l /\ f x = true /\ g x = true.
Proof.
  intros f g l. unfold tally. induction l as [|x l IH]; cbn [filter length]; intro H; [lia|]. destruct (f x) eqn:F; destruct (g x) eqn:G.
  - exists x. split; [left; reflexivity|tauto].
  - cbn [length] in H. destruct IH as (y & Y & E); [lia|]. exists y. split; [right; exact Y|exact E].
  - cbn [length] in H. destruct IH as (y & Y & E); [lia|]. exists y. split; [right; exact Y|exact E].
  - destruct IH as (y & Y & E); [lia|]. exists y. split; [right; exact Y|exact E].
Qed.
(** What five of nine are is their median. *)
Lemma majority : forall l c, length l = 9%nat -> (5 <= tally (fun x => Qeq_bool x c) l)%nat -> (nth 4 (sort_q l) 0 == c)%Q.
Proof.
  intros l c L M. destruct (median_spec l L) as [A B]. set (v := nth 4 (sort_q l) 0%Q) in *. clearbody v.
  destruct (tally_meet (fun x => Qle_bool x v) (fun x => Qeq_bool x c) l) as (x & _ & X1 & X2); [lia|]. destruct (tally_meet (fun x => Qle_bool v x) (fun x => Qeq_bool x c) l) as (y & _ & Y1 & Y2); [lia|].
  apply Qle_bool_iff in X1, Y1. apply Qeq_bool_iff in X2, Y2. lra.
Qed.
Lemma padded_out : forall nX nY fill basis i j, ~ tile nX nY i j -> padded nX nY fill basis i j = 0%Q.
Proof. intros nX nY fill basis i j H. unfold padded. destruct (Z.leb_spec 0 i); destruct (Z.ltb_spec i nX); destruct (Z.leb_spec 0 j); destruct (Z.ltb_spec j nY); cbn [andb]; try reflexivity. exfalso. apply H. unfold tile. lia. Qed.
Lemma padded_in : forall nX nY fill basis i j, tile nX nY i j -> padded nX nY fill basis i j = filled fill basis i j.
Proof. intros nX nY fill basis i j H. unfold tile in H. unfold padded. destruct (Z.leb_spec 0 i); [|lia]. destruct (Z.ltb_spec i nX); [|lia]. destruct (Z.leb_spec 0 j); [|lia]. destruct (Z.ltb_spec j nY); [|lia]. reflexivity. Qed.
