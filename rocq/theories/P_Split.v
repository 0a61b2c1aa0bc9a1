(** Proofs about splitting files. *)
From Coq Require Import List ZArith Bool QArith Qround Lia.
From Verif Require Import M_Py M_Split S_Split.
Import ListNotations.
Open Scope Z_scope.

Lemma firstn_more : forall A (l : list A) a b, firstn a l ++ firstn b (skipn a l) = firstn (a + b) l.
Proof.
  intros A l. induction l as [|x l IH]; intros a b; [rewrite skipn_nil, !firstn_nil; reflexivity|].
  destruct a as [|a]; [reflexivity|]. cbn [firstn skipn app Nat.add]. f_equal. apply IH.
Qed.
Lemma skipn_more : forall A (l : list A) a b, skipn b (skipn a l) = skipn (a + b) l.
Proof.
  intros A l. induction l as [|x l IH]; intros a b; [rewrite !skipn_nil; reflexivity|].
  destruct a as [|a]; [reflexivity|]. cbn [skipn Nat.add]. apply IH.
Qed.
Lemma copy_spec : forall size k data, copy_frames size k data = (firstn (k * size) data, skipn (k * size) data).
Proof.
  intros size k. induction k as [|k IH]; intro data; [reflexivity|]. cbn [copy_frames]. unfold read. rewrite IH, firstn_more, skipn_more. reflexivity.
Qed.
Lemma split_spec : forall size n bp data, split_file size n bp data = (firstn (n * bp * size) data, skipn (n * bp * size) data).
Proof.
  intros size n bp. induction n as [|n IH]; intro data; [reflexivity|]. cbn [split_file]. rewrite copy_spec, IH, firstn_more, skipn_more.
  replace (bp * size + n * bp * size)%nat with (S n * bp * size)%nat by lia. reflexivity.
Qed.
Lemma all_spec : forall size r n bp data, let w := (n * bp * size)%nat in
  snd (split_all size r n bp data) = skipn (r * w) data /\ length (fst (split_all size r n bp data)) = r /\
  concat (fst (split_all size r n bp data)) = firstn (r * w) data /\
  forall i, (i < r)%nat -> nth i (fst (split_all size r n bp data)) [] = bytes (i * w) (S i * w) data.
Proof.
  intros size r n bp. induction r as [|r IH]; intros data w.
  - cbn. repeat split; try reflexivity. intros i H. lia.
  - cbn [split_all]. rewrite split_spec. fold w. specialize (IH (skipn w data)). cbv zeta in IH. fold w in IH.
    destruct (split_all size r n bp (skipn w data)) as [l q] eqn:E. cbn [fst snd] in *. destruct IH as (A & B & C & D).
    split; [rewrite A, skipn_more; f_equal; lia|]. split; [cbn [length]; lia|]. split; [cbn [concat]; rewrite C, firstn_more; f_equal; lia|].
    intros i H. destruct i as [|i]; cbn [nth].
    + unfold bytes. cbn [skipn Nat.mul]. f_equal. lia.
    + rewrite D by lia. unfold bytes. rewrite skipn_more. replace (S (S i) * w - S i * w)%nat with (S i * w - i * w)%nat by lia. replace (S i * w)%nat with (w + i * w)%nat by lia. reflexivity.
Qed.
Lemma seek_spec : forall pre cur f post, Forall (fun g => drx_frame g /\ ~ opens_capture g) (cur :: pre) -> drx_frame f -> opens_capture f -> seek_first cur (pre ++ f :: post) = Ok post.
Proof.
  intros pre. induction pre as [|g pre IH]; intros cur f post H Df Of; assert (Hc := Forall_inv H); cbv beta in Hc; destruct Hc as ((T & P) & N).
  - cbn [app seek_first]. destruct (Z.eqb_spec (2 * (f_tune cur - 1) + f_pol cur) 0) as [E|_]; cbn [negb]; [destruct N; unfold opens_capture; lia|].
    destruct Of as (T1 & P0). destruct post; cbn [seek_first]; rewrite T1, P0; reflexivity.
  - cbn [app seek_first]. destruct (Z.eqb_spec (2 * (f_tune cur - 1) + f_pol cur) 0) as [E|_]; cbn [negb]; [destruct N; unfold opens_capture; lia|].
    apply IH; [exact (Forall_inv_tail H)|assumption|assumption].
Qed.
