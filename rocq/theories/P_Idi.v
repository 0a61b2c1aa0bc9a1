(** Sorting data sets, filling columns, taking rows in the order of a sort, and
    the numbers of the stands. *)
From Coq Require Import String.
From Coq Require Import List ZArith QArith Qabs Sorted Permutation Bool Lia Lqa.
From Verif Require Import M_Idi S_Idi P_Base P_Vis P_Vis2.
Import ListNotations.
Open Scope Z_scope.

(** ** The order of the data sets *)
Section Sort.
Context {V W P : Type}.
Implicit Types a b c x y : dataset V W P.

Definition ds_lt a b : Prop := (d_time a < d_time b)%Q \/ ((d_time a == d_time b)%Q /\ Z.abs (d_pol a) < Z.abs (d_pol b)).
Lemma ds_ltb_spec : forall a b, ds_ltb a b = true <-> ds_lt a b.
Proof.
  intros a b. unfold ds_ltb, ds_lt. destruct (Qcompare_spec (d_time a) (d_time b)) as [K|K|K].
  - rewrite Z.ltb_lt. split; intro H; [right; auto|]. destruct H as [H|H]; [|tauto]. exfalso. lra.
  - tauto.
  - split; [discriminate|]. intros [H|[H _]]; exfalso; lra.
Qed.
Definition ds_le a b : Prop := ~ ds_lt b a.
Lemma ds_le_trans : forall a b c, ds_le a b -> ds_le b c -> ds_le a c.
Proof.
  unfold ds_le, ds_lt. intros a b c H1 H2 [H|[H H']].
  - destruct (Qlt_le_dec (d_time b) (d_time a)); [tauto|]. destruct (Qlt_le_dec (d_time c) (d_time b)); [tauto|]. lra.
  - destruct (Qlt_le_dec (d_time b) (d_time a)); [tauto|]. destruct (Qlt_le_dec (d_time c) (d_time b)); [tauto|].
    assert (Eab : (d_time b == d_time a)%Q) by lra. assert (Ebc : (d_time c == d_time b)%Q) by lra.
    destruct (Z_lt_dec (Z.abs (d_pol b)) (Z.abs (d_pol a))); [apply H1; right; auto|].
    destruct (Z_lt_dec (Z.abs (d_pol c)) (Z.abs (d_pol b))); [apply H2; right; auto|]. lia.
Qed.
Lemma ds_lt_le : forall a b, ds_lt a b -> ds_le a b.
Proof. unfold ds_le, ds_lt. intros a b [H|[H H']] [K|[K K']]; try lra; lia. Qed.

Lemma insert_ds_perm : forall x l, Permutation (x :: l) (insert_ds x l).
Proof. induction l as [|y l IH]; simpl; auto. destruct (ds_ltb y x); auto. rewrite perm_swap. constructor. auto. Qed.
Lemma sort_ds_perm : forall l : list (dataset V W P), Permutation l (sort_ds l).
Proof. induction l as [|x l IH]; simpl; auto. rewrite <- insert_ds_perm. constructor. auto. Qed.
Lemma insert_ds_sorted : forall x l, StronglySorted ds_le l -> StronglySorted ds_le (insert_ds x l).
Proof.
  induction l as [|y l IH]; intro H; simpl; [repeat constructor|].
  inversion H as [|? ? H1 H2]; subst. destruct (ds_ltb y x) eqn:K.
  - apply ds_ltb_spec in K. constructor; auto. rewrite Forall_forall in *. intros z I.
    apply (Permutation_in _ (Permutation_sym (insert_ds_perm x l))) in I. destruct I as [<-|I]; auto. apply ds_lt_le; auto.
  - assert (ds_le x y) by (intro C; apply ds_ltb_spec in C; congruence).
    constructor; auto. constructor; auto. rewrite Forall_forall in *. intros z I. eapply ds_le_trans; eauto.
Qed.
Lemma sort_ds_sorted : forall l : list (dataset V W P), StronglySorted ds_le (sort_ds l).
Proof. induction l; simpl; [constructor|]. apply insert_ds_sorted. auto. Qed.

Lemma sorted_unique : forall l m : list (dataset V W P), Permutation l m -> StronglySorted ds_le l -> StronglySorted ds_lt m -> l = m.
Proof.
  induction l as [|x l IH]; intros m Pm Sl Sm.
  - apply Permutation_nil in Pm. auto.
  - destruct m as [|y m]; [apply Permutation_sym, Permutation_nil in Pm; discriminate|].
    inversion Sl as [|? ? Sl' Fl]; subst. inversion Sm as [|? ? Sm' Fm]; subst.
    assert (K : x = y).
    { assert (Ix : In x (y :: m)) by (eapply Permutation_in; [apply Pm|left; auto]).
      assert (Iy : In y (x :: l)) by (eapply Permutation_in; [apply Permutation_sym, Pm|left; auto]).
      destruct Ix as [->|Ix]; auto. destruct Iy as [->|Iy]; auto.
      rewrite Forall_forall in *. exfalso. apply (Fl y Iy). apply Fm. auto. }
    subst y. f_equal. apply IH; auto. eapply Permutation_cons_inv; eauto.
Qed.
Lemma sort_ds_of : forall l m : list (dataset V W P), Permutation l m -> StronglySorted ds_lt m -> sort_ds l = m.
Proof.
  intros l m Pm Sm. apply sorted_unique; auto; [|apply sort_ds_sorted].
  rewrite <- sort_ds_perm. auto.
Qed.
End Sort.

(** ** Columns of a matrix *)
Lemma stride_length : forall A (row : list A) i n vals, length (set_stride i n row vals) = length row.
Proof. induction row as [|x row IH]; intros i n vals; simpl; auto. destruct vals as [|v vals]; auto. destruct i; simpl; rewrite IH; auto. Qed.
Lemma stride_hit : forall A (d : A) row i n vals q, (i < n)%nat -> (i + q * n < length row)%nat -> (q < length vals)%nat ->
  nth (i + q * n) (set_stride i n row vals) d = nth q vals d.
Proof.
  induction row as [|x row IH]; intros i n vals q L Hr Hv; [simpl in Hr; lia|].
  destruct vals as [|v vals]; [simpl in Hv; lia|]. destruct i as [|i]; cbn [set_stride].
  - destruct q as [|q]; [reflexivity|]. rewrite Nat.mul_succ_l in *.
    replace (0 + (q * n + n))%nat with (S (Nat.pred n + q * n))%nat by lia. cbn [nth].
    cbn [length] in Hr, Hv. apply IH; lia.
  - replace (S i + q * n)%nat with (S (i + q * n))%nat by lia. cbn [nth]. cbn [length] in Hr. apply IH; lia.
Qed.
Lemma stride_miss : forall A (d : A) row i n vals k, (i < n)%nat -> (forall q, k <> i + q * n)%nat ->
  nth k (set_stride i n row vals) d = nth k row d.
Proof.
  induction row as [|x row IH]; intros i n vals k L H; [reflexivity|].
  destruct vals as [|v vals]; [reflexivity|]. destruct i as [|i]; cbn [set_stride].
  - destruct k as [|k]; [exfalso; apply (H O); lia|]. cbn [nth]. apply IH; [lia|].
    intros q C. apply (H (S q)). rewrite Nat.mul_succ_l. lia.
  - destruct k as [|k]; [reflexivity|]. cbn [nth]. apply IH; [lia|]. intros q C. apply (H q). lia.
Qed.

(** A row whose first [p] polarizations have been filled in *)
Definition filled {A} (d : A) (n c p : nat) (vals : nat -> list A) (row : list A) : Prop :=
  length row = (n * c)%nat /\ (forall q k, (q < p)%nat -> (k < c)%nat -> nth (q + k * n) row d = nth k (vals q) d) /\
  (forall q k, (p <= q < n)%nat -> (k < c)%nat -> nth (q + k * n) row d = d).
Lemma residue_unique : forall n a b q r, (a < n)%nat -> (b < n)%nat -> (a + q * n = b + r * n)%nat -> a = b.
Proof.
  intros n a b q r La Lb H. assert (K : ((a + q * n) mod n = (b + r * n) mod n)%nat) by congruence.
  rewrite !Nat.mod_add in K by lia. rewrite !Nat.mod_small in K by lia. auto.
Qed.
Lemma fill_step : forall A (d : A) n c p vals row, (p < n)%nat -> length (vals p) = c -> filled d n c p vals row ->
  filled d n c (S p) vals (set_stride p n row (vals p)).
Proof.
  intros A d n c p vals row L Lv (H1 & H2 & H3). split; [rewrite stride_length; auto|]. split.
  - intros q k Lq Lk. destruct (Nat.eq_dec q p) as [->|N].
    + apply stride_hit; auto; [|lia]. rewrite H1. nia.
    + rewrite stride_miss; auto; [apply H2; lia|]. intros r C. apply N. eapply residue_unique; [| |apply C]; lia.
  - intros q k Lq Lk. rewrite stride_miss; auto; [apply H3; lia|]. intros r C.
    assert (q = p) by (eapply residue_unique; [| |apply C]; lia). lia.
Qed.
(** The same when nothing is put in. *)
Lemma fill_skip : forall A (d : A) n c p vals row, (p < n)%nat -> vals p = repeat d c -> filled d n c p vals row -> filled d n c (S p) vals row.
Proof.
  intros A d n c p vals row L Lv (H1 & H2 & H3). split; auto. split.
  - intros q k Lq Lk. destruct (Nat.eq_dec q p) as [->|N]; [|apply H2; lia]. rewrite H3, Lv by lia. symmetry. apply nth_repeat.
  - intros q k Lq Lk. apply H3; lia.
Qed.
Lemma fill_start : forall A (d : A) n c vals, filled d n c 0 vals (repeat d (n * c)).
Proof. intros. split; [apply repeat_length|]. split; [lia|]. intros. apply nth_repeat. Qed.
Lemma fill_read : forall A (d : A) n c vals row p, filled d n c n vals row -> (p < n)%nat -> length (vals p) = c ->
  channels_of d (Z.of_nat c) (Z.of_nat n) (Z.of_nat p) row = vals p.
Proof.
  intros A d n c vals row p (H1 & H2 & _) L Lv. unfold channels_of, range. rewrite Z.sub_0_r, Nat2Z.id, map_map.
  apply nth_ext with d d; [rewrite map_length, seq_length; auto|].
  intros k Hk. rewrite map_length, seq_length in Hk.
  rewrite (nth_indep _ _ ((fun x : nat => znth d ((0 + Z.of_nat x) * Z.of_nat n + Z.of_nat p) row) O)) by (rewrite map_length, seq_length; auto).
  rewrite (map_nth (fun x : nat => znth d ((0 + Z.of_nat x) * Z.of_nat n + Z.of_nat p) row)), seq_nth by auto. unfold znth.
  destruct (Z.ltb_spec ((0 + Z.of_nat (0 + k)) * Z.of_nat n + Z.of_nat p) 0); [lia|].
  replace (Z.to_nat ((0 + Z.of_nat (0 + k)) * Z.of_nat n + Z.of_nat p)) with (p + k * n)%nat by lia. apply H2; auto.
Qed.

(** ** Rows in the order of a sort *)
Section Take.
Context {A : Type} (d : A).
Definition at_pair (t : list A) (p : Z * Z) : A := znth d (snd p) t.
Lemma enumerate_at : forall (l pre : list A) (f : A -> Z),
  map (at_pair (pre ++ l)) (enumerate_from (zlen pre) (map f l)) = l /\
  Forall (fun p => fst p = f (at_pair (pre ++ l) p) /\ 0 <= snd p < zlen (pre ++ l)) (enumerate_from (zlen pre) (map f l)).
Proof.
  induction l as [|x l IH]; intros pre f; simpl; [split; auto|].
  specialize (IH (pre ++ [x]) f). rewrite <- app_assoc in IH. simpl in IH.
  replace (zlen (pre ++ [x])) with (zlen pre + 1) in IH by (rewrite zlen_app; reflexivity).
  destruct IH as (H1 & H2). rewrite H1.
  assert (K : at_pair (pre ++ x :: l) (f x, zlen pre) = x).
  { unfold at_pair. simpl. rewrite znth_app_r, Z.sub_diag by lia. reflexivity. }
  split.
  - f_equal. exact K.
  - constructor; auto. simpl. rewrite K. split; auto. rewrite zlen_app, zlen_cons.
    pose proof (zlen_nonneg pre). pose proof (zlen_nonneg l). lia.
Qed.
Lemma take_at : forall t l, Forall (fun p => 0 <= snd p < zlen t) l -> take t (map snd l) = Ok (map (at_pair t) l).
Proof.
  intros t l F. unfold take. induction l as [|p l IH]; simpl; auto. inversion F as [|? ? H F']; subst.
  rewrite (py_index_ok d) by auto. simpl. rewrite IH; auto.
Qed.
Lemma take_sorted : forall (t : list A) (f : A -> Z),
  exists t', take t (map snd (sort_keys (enumerate_from 0 (map f t)))) = Ok t' /\ Permutation t t' /\
             StronglySorted (fun x y => f x <= f y) t' /\ length (sort_keys (enumerate_from 0 (map f t))) = length t.
Proof.
  intros t f. set (l := sort_keys (enumerate_from 0 (map f t))). destruct (enumerate_at t [] f) as (H1 & H2). simpl in H1, H2.
  unfold zlen in H1, H2 at 1. simpl in H1, H2.
  pose proof (sort_keys_perm (enumerate_from 0 (map f t))) as Pm. fold l in Pm.
  assert (F : Forall (fun p => fst p = f (at_pair t p) /\ 0 <= snd p < zlen t) l).
  { rewrite Forall_forall in *. intros p I. apply H2. eapply Permutation_in; [symmetry; apply Pm|auto]. }
  exists (map (at_pair t) l). split; [|split; [|split]].
  - apply take_at. rewrite Forall_forall in *. intros p I. apply F in I. tauto.
  - rewrite <- H1 at 1. apply Permutation_map. auto.
  - pose proof (sort_keys_sorted (enumerate_from 0 (map f t))) as S. fold l in S. clear - F S.
    induction l as [|p l IH]; simpl; [constructor|]. inversion S as [|? ? S' G]; subst. inversion F as [|? ? F0 F']; subst.
    constructor; auto. apply Forall_forall. intros y I. apply in_map_iff in I. destruct I as (q & <- & I).
    rewrite Forall_forall in G, F'. specialize (G q I). specialize (F' q I). unfold key_le in G. destruct F0, F'. lia.
  - rewrite <- (Permutation_length Pm). rewrite <- H1 at 2. rewrite map_length. auto.
Qed.
End Take.

Lemma sorted_strict : forall A (f : A -> Z) l, StronglySorted (fun x y => f x <= f y) l -> NoDup (map f l) -> StronglySorted (fun x y => f x < f y) l.
Proof.
  induction l as [|x l IH]; intros S N; [constructor|]. inversion S as [|? ? S' F]; subst. simpl in N. inversion N as [|? ? N1 N2]; subst.
  constructor; auto. rewrite Forall_forall in *. intros y I. specialize (F y I).
  assert (f x <> f y) by (intro C; apply N1; rewrite C; apply in_map; auto). lia.
Qed.

(** ** Dictionaries and lists *)
Lemma dget_dset : forall d k v j, dget (dset d k v) j = if k =? j then Ok v else dget d j.
Proof.
  induction d as [|[k' v'] d IH]; intros k v j; simpl; auto.
  destruct (Z.eqb_spec k' k) as [->|N]; simpl.
  - destruct (Z.eqb_spec k j); auto.
  - rewrite IH. destruct (Z.eqb_spec k' j) as [->|N']; auto. destruct (Z.eqb_spec k j); [congruence|auto].
Qed.
Lemma fold_dset : forall l d k, dget (fold_left (fun d p => dset d (fst p) (snd p)) l d) k =
  match dget (rev l) k with Ok v => Ok v | Raise _ => dget d k end.
Proof.
  assert (G : forall a b k, dget (a ++ b) k = match dget a k with Ok v => Ok v | Raise _ => dget b k end).
  { induction a as [|[x y] a IH]; intros b k; simpl; auto. destruct (x =? k); auto. }
  induction l as [|[x y] l IH]; intros d k; simpl; auto. rewrite IH, G. destruct (dget (rev l) k); auto.
  simpl. rewrite dget_dset. destruct (x =? k); auto.
Qed.
Lemma dget_in : forall d k v, NoDup (map fst d) -> In (k, v) d -> dget d k = Ok v.
Proof.
  induction d as [|[x y] d IH]; intros k v N I; simpl in *; [tauto|]. inversion N as [|? ? N1 N2]; subst.
  destruct I as [I|I]; [injection I as -> ->; rewrite Z.eqb_refl; auto|].
  destruct (Z.eqb_spec x k) as [->|N']; auto. exfalso. apply N1. apply in_map_iff. exists (k, v). auto.
Qed.
Lemma fold_dset_in : forall l k v, NoDup (map fst l) -> In (k, v) l -> dget (fold_left (fun d p => dset d (fst p) (snd p)) l []) k = Ok v.
Proof.
  intros l k v N I. rewrite fold_dset. rewrite (dget_in (rev l) k v); auto.
  - rewrite map_rev. apply (Permutation_NoDup (Permutation_rev _)). auto.
  - apply in_rev. rewrite rev_involutive. auto.
Qed.

Lemma list_index_ok : forall A (eqb : A -> A -> bool), (forall x y, eqb x y = true <-> x = y) ->
  forall l x, In x l -> exists k, list_index eqb x l = Ok k /\ 0 <= k /\ nth_error l (Z.to_nat k) = Some x.
Proof.
  intros A eqb He l x. induction l as [|y l IH]; intro I; [destruct I|]. simpl. destruct (eqb y x) eqn:K.
  - apply He in K. subst y. exists 0. auto with zarith.
  - destruct I as [->|I]; [rewrite (proj2 (He x x)) in K by auto; discriminate|].
    destruct (IH I) as (k & -> & H0 & N). exists (1 + k). split; [reflexivity|]. split; [lia|].
    replace (Z.to_nat (1 + k)) with (S (Z.to_nat k)) by lia. auto.
Qed.
Lemma list_index_nth : forall l k (x : Z), NoDup l -> nth_error l k = Some x -> list_index Z.eqb x l = Ok (Z.of_nat k).
Proof.
  induction l as [|y l IH]; intros k x N H; [destruct k; discriminate|]. inversion N as [|? ? N1 N2]; subst.
  destruct k as [|k]; cbn [nth_error list_index] in *.
  - injection H as ->. rewrite Z.eqb_refl. auto.
  - destruct (Z.eqb_spec y x) as [->|C]; [exfalso; apply N1; eapply nth_error_In; eauto|].
    rewrite (IH k x) by auto. cbn [bind]. apply f_equal. lia.
Qed.

Lemma spread_same : forall A (l : list A) n, zlen l = n -> spread n l = Ok l.
Proof. intros. unfold spread. rewrite (proj2 (Z.eqb_eq _ _)) by auto. auto. Qed.
Lemma zip_with_map : forall A B C T (f : A -> B -> C) (g : T -> A) (h : T -> B) l, zip_with f (map g l) (map h l) = map (fun t => f (g t) (h t)) l.
Proof. induction l; simpl; congruence. Qed.
