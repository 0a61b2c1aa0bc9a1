(** Proofs about station dynamic MIB files. *)
From Coq Require Import List ZArith Bool Lia.
From Verif Require Import M_Py M_Sdm S_Sdm.
Import ListNotations.
Open Scope Z_scope.

Lemma item_nonneg : forall A (l : list A) i, 0 <= i -> item l i = match nth_error l (Z.to_nat i) with Some x => Ok x | None => Raise IndexError end.
Proof. intros A l i H. unfold item. destruct (Z.ltb_spec i 0); [lia|]. destruct (Z.ltb_spec i 0); [lia|]. reflexivity. Qed.
Lemma item_table : forall table s p v, table_status table s p = Some v -> bind (item table (s - 1)) (fun row => item row p) = Ok v.
Proof.
  intros table s p v H. unfold table_status in H. destruct (Z.leb_spec 1 s) as [S1|]; [|discriminate]. destruct (Z.leb_spec 0 p) as [P0|]; [|discriminate]. cbn [andb] in H.
  rewrite item_nonneg by lia. destruct (nth_error table (Z.to_nat (s - 1))) as [row|]; [|discriminate]. cbn [bind]. rewrite item_nonneg by lia. rewrite H. reflexivity.
Qed.
Lemma loop_ok : forall table todo h out,
  (forall a, In a todo -> exists v, table_status table (stand_id (h a)) (pol (h a)) = Some v) ->
  exists h', (forall rest, update_loop table h out (todo ++ rest) = update_loop table h' (out ++ todo) rest) /\ updated table h h' todo.
Proof.
  intros table todo. induction todo as [|a todo IH]; intros h out H.
  - exists h. split; [intro rest; cbn [app]; rewrite app_nil_r; reflexivity|]. intro b. repeat split; contradiction.
  - destruct (H a (or_introl eq_refl)) as (v & V). set (h1 := set_status h a v).
    assert (K : forall b, stand_id (h1 b) = stand_id (h b) /\ pol (h1 b) = pol (h b)) by (intro b; unfold h1, set_status; destruct (Nat.eqb b a); split; reflexivity).
    destruct (IH h1 (out ++ [a])) as (h' & L & U).
    { intros b I. destruct (K b) as [-> ->]. apply H. right. exact I. }
    exists h'. split.
    + intro rest. cbn [app update_loop]. rewrite (item_table _ _ _ _ V). fold h1. rewrite L, <- app_assoc. reflexivity.
    + intro b. destruct (U b) as (U1 & U2 & U3 & U4). destruct (K b) as [K1 K2]. rewrite K1, K2 in *. split; [exact U1|]. split; [exact U2|]. split.
      * intros I. destruct (in_dec Nat.eq_dec b todo) as [J|J]; [apply U3; exact J|]. rewrite (U4 J). destruct I as [<-|I]; [|contradiction]. unfold h1, set_status. rewrite Nat.eqb_refl. cbn [status]. symmetry. exact V.
      * intro N. rewrite U4 by (intro J; apply N; right; exact J). unfold h1, set_status. destruct (Nat.eqb_spec b a) as [->|]; [exfalso; apply N; left; reflexivity|reflexivity].
Qed.
Lemma nth_error_firstn : forall A d (l : list A) i, (i < d)%nat -> nth_error (firstn d l) i = nth_error l i.
Proof. intros A d. induction d as [|d IH]; intros l i H; [lia|]. destruct l as [|x l]; [destruct i; reflexivity|]. destruct i as [|i]; [reflexivity|]. cbn. apply IH. lia. Qed.
Lemma nth_error_skipn : forall A k (l : list A) i, nth_error (skipn k l) i = nth_error l (k + i).
Proof. intros A k. induction k as [|k IH]; intros l i; [reflexivity|]. destruct l as [|x l]; [destruct i; reflexivity|]. cbn. apply IH. Qed.
Lemma chunk_ok : forall d l m, d <> 0%nat -> length l = (m * d)%nat -> chunk d l = Ok (map (fun k => Node (firstn d (skipn (k * d) l))) (seq 0 m)).
Proof.
  intros d l m Hd H. unfold chunk. destruct d as [|d]; [congruence|]. apply (f_equal Ok). f_equal. f_equal. rewrite H. replace (m * S d + S d - 1)%nat with (d + m * S d)%nat by lia.
  rewrite Nat.div_add by lia. rewrite Nat.div_small by lia. reflexivity.
Qed.
Lemma get_app : forall i j x, get (i ++ j) x = match get i x with Some y => get j y | None => None end.
Proof. induction i as [|a i IH]; intros j x; [reflexivity|]. cbn [app get]. destruct x as [z|l]; [reflexivity|]. destruct (nth_error l a); [apply IH|reflexivity]. Qed.
Lemma prod_from : forall s a, fold_left Nat.mul s a = (a * fold_left Nat.mul s 1)%nat.
Proof. induction s as [|d s IH]; intro a; cbn [fold_left]; [lia|]. rewrite IH, (IH (1 * d)%nat). lia. Qed.
Lemma combine_snoc : forall (s i : list nat) d x, length s = length i -> combine (s ++ [d]) (i ++ [x]) = combine s i ++ [(d, x)].
Proof. induction s as [|a s IH]; intros i d x H; destruct i as [|b i]; try discriminate; [reflexivity|]. cbn. f_equal. apply IH. injection H as H. exact H. Qed.
Lemma forall2_snoc : forall (P : nat -> nat -> Prop) s d l, Forall2 P l (s ++ [d]) -> exists l' x, l = l' ++ [x] /\ Forall2 P l' s /\ P x d.
Proof. intros P s d l H. apply Forall2_app_inv_r in H. destruct H as (l1 & l2 & A & B & ->). inversion B as [|x y l3 l4 C D]; subst. inversion D; subst. exists l1, x. auto. Qed.
Lemma forall2_len : forall (P : nat -> nat -> Prop) l s, Forall2 P l s -> length l = length s.
Proof. intros P l s H. induction H; cbn; congruence. Qed.
Lemma prod_snoc : forall s d, fold_left Nat.mul (s ++ [d]) 1%nat = (fold_left Nat.mul s 1 * d)%nat.
Proof. intros. rewrite fold_left_app. reflexivity. Qed.
Lemma group_get : forall shape l, shape <> [] -> Forall (fun d => d <> 0%nat) shape -> fold_left Nat.mul shape 1%nat = length l ->
  exists out, group (rev shape) l = Ok out /\ length out = hd 0%nat shape /\ forall idx, Forall2 lt idx shape -> get idx (Node out) = nth_error l (row_major shape idx).
Proof.
  intro shape. induction shape as [|d s IH] using rev_ind; intros l N F H; [congruence|]. clear N. rewrite rev_unit. cbn [group]. rewrite prod_snoc in H.
  apply Forall_app in F. destruct F as [Fs Fd]. inversion Fd as [|? ? D _]; subst. destruct s as [|e s].
  - cbn [rev app]. exists l. split; [reflexivity|]. cbn in H. split; [cbn; lia|]. intros idx I. inversion I as [|i y r r' P Q]; subst. inversion Q; subst. cbn [get]. unfold row_major. cbn [combine fold_left]. cbn. destruct (nth_error l i); reflexivity.
  - assert (R : rev (e :: s) <> []) by (intro E; apply (f_equal (@length nat)) in E; rewrite rev_length in E; discriminate). destruct (rev (e :: s)) as [|q r] eqn:E; [congruence|]. rewrite <- E in *. clear R E.
    rewrite (chunk_ok d l (fold_left Nat.mul (e :: s) 1%nat)) by (auto; lia). cbn [bind]. set (m := fold_left Nat.mul (e :: s) 1%nat) in *. set (l1 := map _ (seq 0 m)).
    assert (L1 : length l1 = m) by (unfold l1; rewrite map_length, seq_length; reflexivity).
    destruct (IH l1) as (out & G & Le & Gt); [congruence|exact Fs|rewrite L1; reflexivity|]. exists out. split; [exact G|]. split; [exact Le|].
    intros idx I. apply forall2_snoc in I. destruct I as (ix & x & -> & I & X). rewrite get_app, (Gt ix I). unfold row_major. rewrite combine_snoc by (symmetry; apply (forall2_len _ _ _ I)).
    rewrite fold_left_app. cbn [fold_left]. fold (row_major (e :: s) ix). set (k := row_major (e :: s) ix) in *.
    destruct (nth_error l1 k) as [y|] eqn:Y.
    + assert (Hk : (k < m)%nat) by (rewrite <- L1; apply nth_error_Some; rewrite Y; discriminate). unfold l1 in Y. rewrite (map_nth_error _ k (seq 0 m) (d := k)) in Y.
      * injection Y as <-. cbn [get]. rewrite nth_error_firstn by exact X. rewrite nth_error_skipn. destruct (nth_error l (k * d + x)); reflexivity.
      * rewrite nth_error_nth' with (d := 0%nat) by (rewrite seq_length; exact Hk). rewrite seq_nth by exact Hk. reflexivity.
    + apply nth_error_None in Y. symmetry. apply nth_error_None. rewrite <- H. rewrite L1 in Y. nia.
Qed.
Lemma row_bound : forall shape idx, Forall2 lt idx shape -> (row_major shape idx < fold_left Nat.mul shape 1)%nat.
Proof.
  intro shape. induction shape as [|d s IH] using rev_ind; intros idx I; [inversion I; cbn; lia|]. apply forall2_snoc in I. destruct I as (ix & x & -> & I & X). specialize (IH ix I).
  unfold row_major in *. rewrite combine_snoc by (symmetry; apply (forall2_len _ _ _ I)). rewrite fold_left_app, prod_snoc. cbn [fold_left]. nia.
Qed.
Lemma short_back : forall v, is_short v -> let u := (v mod 65536) mod 256 + 256 * (v mod 65536 / 256) in (if u <? 32768 then u else u - 65536) = v.
Proof.
  intros v H. cbv zeta. unfold is_short in H. replace ((v mod 65536) mod 256 + 256 * (v mod 65536 / 256)) with (v mod 65536) by (rewrite (Z.div_mod (v mod 65536) 256) at 1 by lia; lia).
  destruct (Z.ltb_spec (v mod 65536) 32768) as [A|A].
  - assert (0 <= v \/ v < 0) as [P|P] by lia; [apply Z.mod_small; lia|]. rewrite <- (Z.mod_add v 1 65536), Z.mod_small in A by lia. lia.
  - assert (0 <= v \/ v < 0) as [P|P] by lia; [rewrite Z.mod_small in A by lia; lia|]. rewrite <- (Z.mod_add v 1 65536), Z.mod_small by lia. lia.
Qed.
