(** Facts about strings. *)
From Coq Require Import List ZArith Bool Lia.
From Verif Require Import M_Str.
Import ListNotations.
Open Scope Z_scope.
Ltac Zify.zify_post_hook ::= Z.div_mod_to_equations.

Lemma str_eqb_spec : forall a b, reflect (a = b) (str_eqb a b).
Proof.
  induction a as [|x a IH]; intros [|y b]; cbn; try (constructor; congruence). destruct (Z.eqb_spec x y); cbn; [|constructor; congruence].
  destruct (IH b); constructor; congruence.
Qed.
Lemma str_eqb_refl : forall a, str_eqb a a = true.
Proof. intro a. destruct (str_eqb_spec a a); congruence. Qed.
Definition str_eq_dec (a b : str) : {a = b} + {a <> b} := list_eq_dec Z.eq_dec a b.

(** *** strip *)
Definition edge_ok (s : str) : Prop := match s with [] => True | c :: _ => is_space c = false end.
Definition trimmed (s : str) : Prop := edge_ok s /\ edge_ok (rev s).
Lemma lstrip_id : forall s, edge_ok s -> lstrip s = s.
Proof. destruct s as [|c s]; cbn; auto. intros ->. auto. Qed.
Lemma strip_id : forall s, trimmed s -> strip s = s.
Proof. intros s [A B]. unfold strip, rstrip. rewrite (lstrip_id s A), (lstrip_id (rev s) B). apply rev_involutive. Qed.
Lemma lstrip_spaces : forall p s, Forall (fun c => is_space c = true) p -> lstrip (p ++ s) = lstrip s.
Proof. induction p as [|c p IH]; intros s H; cbn; auto. inversion H; subst. rewrite H2. auto. Qed.
Lemma lstrip_app : forall s t, Forall (fun c => is_space c = true) t -> lstrip (s ++ t) = match lstrip s with [] => [] | r => r ++ t end.
Proof.
  induction s as [|c s IH]; intros t H; cbn.
  - rewrite <- (app_nil_r t), lstrip_spaces by auto. reflexivity.
  - destruct (is_space c); [apply IH; auto|reflexivity].
Qed.
Lemma strip_pad : forall p s q, Forall (fun c => is_space c = true) p -> Forall (fun c => is_space c = true) q -> strip (p ++ s ++ q) = strip s.
Proof.
  intros p s q P Q. unfold strip. rewrite lstrip_spaces by auto. rewrite lstrip_app by auto. unfold rstrip.
  destruct (lstrip s) as [|c r] eqn:E; auto. rewrite rev_app_distr. rewrite lstrip_spaces by (apply Forall_rev; auto). reflexivity.
Qed.
Lemma lstrip_edge : forall s, edge_ok (lstrip s).
Proof. induction s as [|c s IH]; cbn; auto. destruct (is_space c) eqn:E; auto. Qed.
Lemma lstrip_suffix : forall s, exists p, s = p ++ lstrip s /\ Forall (fun c => is_space c = true) p.
Proof.
  induction s as [|c s IH]; [exists []; auto|]. cbn. destruct (is_space c) eqn:E; [|exists []; auto]. destruct IH as (p & P1 & P2). exists (c :: p). split; [cbn; congruence|auto].
Qed.
Lemma strip_trimmed : forall s, trimmed (strip s).
Proof.
  intro s. unfold trimmed, strip, rstrip. rewrite rev_involutive. split; [|apply lstrip_edge].
  destruct (lstrip_suffix (rev (lstrip s))) as (p & P1 & P2). pose proof (lstrip_edge s) as E.
  assert (Q : lstrip s = rev (lstrip (rev (lstrip s))) ++ rev p). { rewrite <- rev_app_distr, <- P1, rev_involutive. auto. }
  destruct (rev (lstrip (rev (lstrip s)))) as [|c r]; cbn; auto. rewrite Q in E. exact E.
Qed.

(** *** split *)
Lemma split1_found : forall c a b, ~ In c a -> split1 c (a ++ c :: b) = Some (a, b).
Proof.
  induction a as [|x a IH]; intros b H; cbn; [rewrite Z.eqb_refl; auto|]. destruct (Z.eqb_spec x c); [exfalso; apply H; left; auto|].
  rewrite IH; auto. intro. apply H. right. auto.
Qed.
Lemma split1_none : forall c s, ~ In c s -> split1 c s = None.
Proof. induction s as [|x s IH]; intro H; cbn; auto. destruct (Z.eqb_spec x c); [exfalso; apply H; left; auto|]. rewrite IH; auto. intro. apply H. right. auto. Qed.
Lemma split1_some : forall c s a b, split1 c s = Some (a, b) -> s = a ++ c :: b /\ ~ In c a.
Proof.
  induction s as [|x s IH]; intros a b H; cbn in H; [discriminate|]. destruct (Z.eqb_spec x c).
  - inversion H; subst. cbn. auto.
  - destruct (split1 c s) as [[a' b']|]; [|discriminate]. inversion H; subst. destruct (IH a' b eq_refl) as [-> N]. cbn. split; auto. intros [|]; auto.
Qed.
Lemma rsplit1_found : forall c a b, ~ In c b -> rsplit1 c (a ++ c :: b) = Some (a, b).
Proof.
  intros c a b H. unfold rsplit1. rewrite rev_app_distr. cbn [rev]. rewrite <- app_assoc. cbn [app]. rewrite split1_found; [rewrite !rev_involutive; auto|].
  intro. apply H. apply in_rev. auto.
Qed.
Lemma rsplit1_none : forall c s, ~ In c s -> rsplit1 c s = None.
Proof. intros c s H. unfold rsplit1. rewrite split1_none; auto. intro. apply H. apply in_rev. auto. Qed.
Lemma split_nonempty : forall c s, split c s <> [].
Proof. destruct s as [|x s]; cbn; [discriminate|]. destruct (x =? c); [discriminate|]. destruct (split c s); discriminate. Qed.
Lemma split_none : forall c s, ~ In c s -> split c s = [s].
Proof.
  induction s as [|x s IH]; intro H; cbn; auto. destruct (Z.eqb_spec x c); [exfalso; apply H; left; auto|]. rewrite IH; auto. intro. apply H. right. auto.
Qed.
Lemma split_app : forall c a s, ~ In c a -> split c (a ++ c :: s) = a :: split c s.
Proof.
  induction a as [|x a IH]; intros s H; cbn; [rewrite Z.eqb_refl; auto|]. destruct (Z.eqb_spec x c); [exfalso; apply H; left; auto|].
  rewrite IH; auto. intro. apply H. right. auto.
Qed.
Lemma split_join : forall c l, l <> [] -> Forall (fun s => ~ In c s) l -> split c (join c l) = l.
Proof.
  induction l as [|s l IH]; intros N H; [congruence|]. inversion H; subst. destruct l as [|t l]; [apply split_none; auto|].
  change (join c (s :: t :: l)) with (s ++ c :: join c (t :: l)). rewrite split_app by auto. rewrite IH; auto. discriminate.
Qed.
Lemma join_split : forall c s, join c (split c s) = s.
Proof.
  induction s as [|x s IH]; cbn; auto. destruct (Z.eqb_spec x c).
  - subst. destruct (split c s) as [|f fs] eqn:E; [exfalso; eapply split_nonempty; eauto|]. cbn [join app]. f_equal. auto.
  - destruct (split c s) as [|f fs] eqn:E; [exfalso; eapply split_nonempty; eauto|]. destruct fs as [|g fs]; cbn [join app] in *; f_equal; auto.
Qed.
Lemma split_no_sep : forall c s, Forall (fun t => ~ In c t) (split c s).
Proof.
  induction s as [|x s IH]; cbn; [constructor; auto|]. destruct (Z.eqb_spec x c); [constructor; auto|].
  destruct (split c s) as [|f fs]; [repeat constructor; intros [|[]]; auto|]. inversion IH; subst. constructor; auto. intros [|]; auto.
Qed.

(** *** numbers *)
Definition dval (s : str) : Z := fold_left (fun a c => 10 * a + (c - 48)) s 0.
Lemma dval_from : forall s a, fold_left (fun a c => 10 * a + (c - 48)) s a = a * 10 ^ Z.of_nat (length s) + dval s.
Proof.
  unfold dval. induction s as [|c s IH]; intro a; [cbn; lia|]. cbn [fold_left length]. rewrite IH, (IH (10 * 0 + (c - 48))).
  rewrite Nat2Z.inj_succ, Z.pow_succ_r by lia. ring.
Qed.
Lemma digits_spec : forall fuel n acc, 0 <= n < 2 ^ Z.of_nat fuel -> (0 < fuel)%nat ->
  exists s, digits fuel n acc = s ++ acc /\ s <> [] /\ Forall (fun c => is_digit c = true) s /\ dval s = n.
Proof.
  induction fuel as [|k IH]; intros n acc H F; [lia|]. cbn [digits]. destruct (Z.ltb_spec n 10).
  - exists [48 + n]. repeat split; try discriminate.
    + constructor; auto. unfold is_digit. apply andb_true_iff. rewrite !Z.leb_le. lia.
    + unfold dval. cbn [fold_left]. lia.
  - rewrite Nat2Z.inj_succ, Z.pow_succ_r in H by lia.
    destruct (IH (n / 10) ((48 + n mod 10) :: acc)) as (s & S1 & S2 & S3 & S4).
    + split; [apply Z.div_pos; lia|]. assert (n / 10 * 10 <= n) by lia. assert (0 <= n / 10) by (apply Z.div_pos; lia). nia.
    + destruct k; [cbn in H; lia|lia].
    + exists (s ++ [48 + n mod 10]). rewrite S1, <- app_assoc. split; [reflexivity|]. split; [destruct s; discriminate|]. split.
      * apply Forall_app. split; auto. constructor; auto. unfold is_digit. apply andb_true_iff. rewrite !Z.leb_le. pose proof (Z.mod_pos_bound n 10). lia.
      * unfold dval in *. rewrite fold_left_app, S4. cbn [fold_left]. lia.
Qed.
Lemma dec_nat_spec : forall n, 0 <= n -> dec_nat n <> [] /\ Forall (fun c => is_digit c = true) (dec_nat n) /\ dval (dec_nat n) = n.
Proof.
  intros n H. unfold dec_nat. destruct (digits_spec (S (Z.to_nat (Z.log2 n))) n []) as (s & S1 & S2 & S3 & S4); [|lia|rewrite S1, app_nil_r; auto].
  split; auto. destruct (Z.eq_dec n 0) as [->|N]; [cbn; lia|]. pose proof (Z.log2_spec n ltac:(lia)) as [_ L]. rewrite Nat2Z.inj_succ, Z2Nat.id by apply Z.log2_nonneg. exact L.
Qed.
Lemma parse_digits_dval : forall s a b, Forall (fun c => is_digit c = true) s -> s <> [] \/ b = true -> parse_digits b a s = Some (fold_left (fun a c => 10 * a + (c - 48)) s a).
Proof.
  induction s as [|c s IH]; intros a b H N; cbn; [destruct N; [congruence|subst; auto]|]. inversion H; subst. rewrite H2. apply IH; auto.
Qed.
Lemma digit_not_space : forall c, is_digit c = true -> is_space c = false.
Proof.
  intros c H. unfold is_digit in H. apply andb_true_iff in H. rewrite !Z.leb_le in H. unfold is_space.
  repeat (apply orb_false_iff; split); try (apply andb_false_iff; rewrite !Z.leb_gt; lia); apply Z.eqb_neq; lia.
Qed.
Lemma digits_edge : forall s, Forall (fun c => is_digit c = true) s -> edge_ok s.
Proof. intros s H. destruct H; cbn; auto. apply digit_not_space. auto. Qed.
Lemma digits_trimmed : forall s, Forall (fun c => is_digit c = true) s -> trimmed s.
Proof. intros s H. split; apply digits_edge; auto. apply Forall_rev. auto. Qed.
Lemma dec_trimmed : forall n, trimmed (dec n).
Proof.
  intro n. unfold dec. destruct (Z.ltb_spec n 0).
  - destruct (dec_nat_spec (- n) ltac:(lia)) as (N & D & _). split; [reflexivity|]. cbn [rev]. pose proof (Forall_rev D) as R.
    assert (rev (dec_nat (- n)) <> []) by (intro E; apply N; rewrite <- (rev_involutive (dec_nat (- n))), E; auto).
    destruct (rev (dec_nat (- n))); [congruence|]. cbn. inversion R; subst. apply digit_not_space. auto.
  - destruct (dec_nat_spec n ltac:(lia)) as (N & D & _). apply digits_trimmed. auto.
Qed.
Lemma dec_ne : forall n, dec n <> [].
Proof.
  intro n. unfold dec. destruct (Z.ltb_spec n 0); [discriminate|]. apply dec_nat_spec. lia.
Qed.
Lemma parse_dec : forall n, parse_int (dec n) = Some n.
Proof.
  intro n. unfold parse_int. rewrite strip_id by apply dec_trimmed. unfold dec. destruct (Z.ltb_spec n 0).
  - destruct (dec_nat_spec (- n) ltac:(lia)) as (N & D & V). rewrite Z.eqb_refl. rewrite parse_digits_dval by auto. unfold dval in V. rewrite V. cbn. f_equal. lia.
  - destruct (dec_nat_spec n ltac:(lia)) as (N & D & V). destruct (dec_nat n) as [|c s] eqn:E; [congruence|].
    assert (C : is_digit c = true) by (inversion D; auto). unfold is_digit in C. apply andb_true_iff in C. rewrite !Z.leb_le in C.
    destruct (Z.eqb_spec c 45); [lia|]. destruct (Z.eqb_spec c 43); [lia|]. rewrite parse_digits_dval by auto. unfold dval in V. rewrite V. auto.
Qed.
Lemma dec_chars : forall n c, In c (dec n) -> is_digit c = true \/ c = 45.
Proof.
  intros n c H. unfold dec in H. destruct (Z.ltb_spec n 0).
  - destruct (dec_nat_spec (- n) ltac:(lia)) as (_ & D & _). destruct H as [<-|H]; auto. left. rewrite Forall_forall in D. auto.
  - destruct (dec_nat_spec n ltac:(lia)) as (_ & D & _). left. rewrite Forall_forall in D. auto.
Qed.
Lemma dec_no : forall n c, is_digit c = false -> c <> 45 -> ~ In c (dec n).
Proof. intros n c D N H. apply dec_chars in H. destruct H; congruence. Qed.
