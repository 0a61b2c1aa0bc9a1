(** Lemmas about the configuration container. *)
From Coq Require Import List ZArith Bool Lia QArith.
From Verif Require Import M_Str M_Config S_Config P_Str.
Import ListNotations.
Open Scope Z_scope.

(** *** dictionaries *)
Lemma dget_put : forall {A} n m (a : A) d, dget m (dput n a d) = if str_eqb n m then Some a else dget m d.
Proof.
  intros A n m a d. induction d as [|[k b] d IH]; cbn.
  - auto.
  - destruct (str_eqb_spec k n) as [->|N]; cbn.
    + destruct (str_eqb_spec n m); auto.
    + rewrite IH. destruct (str_eqb_spec k m) as [->|]; auto. destruct (str_eqb_spec n m); auto. congruence.
Qed.
Lemma dget_in : forall {A} n (d : list (str * A)), dget n d <> None <-> In n (map fst d).
Proof.
  intros A n d. induction d as [|[k b] d IH]; cbn; [tauto|]. destruct (str_eqb_spec k n) as [->|N]; [split; auto; discriminate|].
  rewrite IH. intuition congruence.
Qed.
Lemma dget_none : forall {A} n (d : list (str * A)), dget n d = None <-> ~ In n (map fst d).
Proof. intros A n d. rewrite <- dget_in. destruct (dget n d); split; intro H; congruence || (exfalso; apply H; discriminate) || auto. Qed.
Lemma dget_some_in : forall {A} n (a : A) d, dget n d = Some a -> In (n, a) d.
Proof. intros A n a d. induction d as [|[k b] d IH]; cbn; [discriminate|]. destruct (str_eqb_spec k n) as [->|N]; intro H; [inversion H; auto|auto]. Qed.
Lemma in_dget : forall {A} n (a : A) d, NoDup (map fst d) -> In (n, a) d -> dget n d = Some a.
Proof.
  intros A n a d. induction d as [|[k b] d IH]; cbn; [tauto|]. intros N [E|I]; inversion N; subst.
  - inversion E; subst. rewrite str_eqb_refl. auto.
  - destruct (str_eqb_spec k n) as [->|]; auto. exfalso. apply H1. apply (in_map fst) in I. auto.
Qed.
Lemma dget_del : forall {A} n m (d : list (str * A)), NoDup (map fst d) -> dget m (ddel n d) = if str_eqb n m then None else dget m d.
Proof.
  intros A n m d. induction d as [|[k b] d IH]; cbn; intro N; [destruct (str_eqb n m); auto|]. inversion N; subst.
  destruct (str_eqb_spec k n) as [->|NE].
  - destruct (str_eqb_spec n m) as [->|]; auto. apply dget_none. auto.
  - cbn. rewrite IH by auto. destruct (str_eqb_spec k m) as [->|]; auto. destruct (str_eqb_spec n m); auto. congruence.
Qed.
Lemma del_keys : forall {A} n m (d : list (str * A)), In m (map fst (ddel n d)) -> In m (map fst d).
Proof. intros A n m d. induction d as [|[k b] d IH]; cbn; auto. destruct (str_eqb k n); cbn; tauto. Qed.
Lemma del_nodup : forall {A} n (d : list (str * A)), NoDup (map fst d) -> NoDup (map fst (ddel n d)).
Proof.
  intros A n d. induction d as [|[k b] d IH]; cbn; auto. intro N. inversion N; subst. destruct (str_eqb k n); auto. cbn. constructor; auto.
  intro I. apply del_keys in I. auto.
Qed.
Lemma put_keys : forall {A} n m (a : A) d, In m (map fst (dput n a d)) <-> m = n \/ In m (map fst d).
Proof.
  intros A n m a d. rewrite <- !dget_in, dget_put. destruct (str_eqb_spec n m) as [->|]; split; intro H; auto; try discriminate. destruct H; [congruence|auto].
Qed.
Lemma put_nodup : forall {A} n (a : A) d, NoDup (map fst d) -> NoDup (map fst (dput n a d)).
Proof.
  intros A n a d. induction d as [|[k b] d IH]; cbn; [intros; constructor; auto; constructor|]. intro N. inversion N; subst.
  destruct (str_eqb_spec k n) as [->|NE]; cbn; [auto|]. constructor; auto. intro I. apply put_keys in I. destruct I; [congruence|auto].
Qed.

(** *** equality of values *)
Lemma py_eq_refl : forall v, py_eq v v = true.
Proof. intros []; unfold py_eq; cbn; auto; try (apply Qeq_bool_iff; reflexivity). apply str_eqb_refl. Qed.
Lemma py_eq_sym : forall a b, py_eq a b = py_eq b a.
Proof.
  intros a b. unfold py_eq. destruct (as_num a) eqn:A, (as_num b) eqn:B; auto.
  - destruct (Qeq_bool q q0) eqn:E; symmetry; [apply Qeq_bool_iff; apply Qeq_bool_iff in E; symmetry; auto|].
    destruct (Qeq_bool q0 q) eqn:F; auto. apply Qeq_bool_iff in F. symmetry in F. apply Qeq_bool_iff in F. congruence.
  - destruct a, b; auto. destruct (str_eqb_spec s s0) as [->|N]; [symmetry; apply str_eqb_refl|]. destruct (str_eqb_spec s0 s); congruence.
Qed.
Lemma py_eq_trans : forall a b c, py_eq a b = true -> py_eq b c = true -> py_eq a c = true.
Proof.
  intros a b c. unfold py_eq. destruct (as_num a) eqn:A, (as_num b) eqn:B, (as_num c) eqn:C; try discriminate.
  - intros H K. apply Qeq_bool_iff in H, K. apply Qeq_bool_iff. rewrite H. auto.
  - destruct a, b, c; try discriminate; auto. intros H K. destruct (str_eqb_spec s s0) as [->|]; [|discriminate]. auto.
Qed.
Lemma py_eq_ne : forall a b c, py_eq a b = true -> py_eq b c = false -> py_eq a c = false.
Proof. intros a b c H K. destruct (py_eq a c) eqn:E; auto. rewrite py_eq_sym in H. rewrite (py_eq_trans b a c H E) in K. discriminate. Qed.

(** *** tracking *)
Definition tracked (base : str -> option value) (c : cfg) (n : str) : Prop :=
  match current c n, base n with
  | Some v, Some b => match dget n (pend c) with
                      | None => py_eq v b = true
                      | Some (o, w) => py_eq o b = true /\ py_eq w v = true /\ py_eq v b = false
                      end
  | None, None => dget n (pend c) = None
  | _, _ => False
  end.
Definition flags (c : cfg) : Prop := NoDup (map fst (pend c)) /\ (pch c = true <-> due c).
Lemma flags_eq : forall c, flags c -> pch c = (0 <? Z.of_nat (length (pend c))) || vch c.
Proof.
  intros c [_ F]. unfold due in F. destruct (pend c) as [|x l]; cbn [length].
  - cbn. destruct (pch c), (vch c); auto; [|exfalso; destruct F as [_ F]; discriminate F; auto]. destruct F as [F _]. destruct F; auto; congruence.
  - replace (0 <? Z.of_nat (S (length l))) with true by (symmetry; apply Z.ltb_lt; lia). apply F. left. discriminate.
Qed.
Lemma current_put : forall n p ps pe a b l m, current (mkC (dput n p ps) pe a b l) m = if str_eqb n m then Some (p_value p) else option_map p_value (dget m ps).
Proof. intros. unfold current. cbn [params]. rewrite dget_put. destruct (str_eqb n m); auto. Qed.

Lemma set_tracks : forall n v c o c' base m, set n v c = (o, c') -> NoDup (map fst (pend c)) -> tracked base c m -> tracked base c' m.
Proof.
  intros n v c o c' base m H N T. unfold set in H. destruct (dget n (params c)) as [p|] eqn:G; [|inversion H; subst; auto].
  destruct (negb (same_type v (p_value p)) && negb (p_opt p)); [inversion H; subst; auto|].
  assert (C : current c n = Some (p_value p)) by (unfold current; rewrite G; auto).
  destruct (py_eq v (p_value p)) eqn:E; [|destruct (py_eq v (match dget n (pend c) with Some (o, _) => o | None => p_value p end)) eqn:O].
  - inversion H; subst. unfold tracked in *. rewrite current_put. cbn [pend p_value set_value]. destruct (str_eqb_spec n m) as [<-|NM]; [|exact T].
    rewrite C in T. destruct (base n) as [b|]; auto. destruct (dget n (pend c)) as [[o w]|] eqn:D.
    + destruct T as (T1 & T2 & T3). split; auto. split; [|eapply py_eq_ne; eauto]. eapply py_eq_trans; [exact T2|]. rewrite py_eq_sym. auto.
    + eapply py_eq_trans; eauto.
  - inversion H; subst. unfold tracked in *. rewrite current_put. cbn [pend p_value set_value]. rewrite dget_del by auto. destruct (str_eqb_spec n m) as [<-|NM]; [|exact T].
    rewrite C in T. destruct (base n) as [b|]; auto. destruct (dget n (pend c)) as [[o w]|] eqn:D; [|congruence]. destruct T as (T1 & _). eapply py_eq_trans; eauto.
  - inversion H; subst. unfold tracked in *. rewrite current_put. cbn [pend p_value set_value]. rewrite dget_put. destruct (str_eqb_spec n m) as [<-|NM]; [|exact T].
    rewrite C in T. destruct (base n) as [b|]; auto. destruct (dget n (pend c)) as [[o w]|] eqn:D.
    + destruct T as (T1 & _). split; auto. split; [apply py_eq_refl|]. rewrite py_eq_sym. rewrite py_eq_sym in O. rewrite py_eq_sym in T1. eapply py_eq_ne; eauto.
    + split; auto. split; [apply py_eq_refl|]. rewrite py_eq_sym. rewrite py_eq_sym in O. rewrite py_eq_sym in T. eapply py_eq_ne; eauto.
Qed.
Lemma set_flags : forall n v c o c', set n v c = (o, c') -> flags c -> flags c'.
Proof.
  intros n v c o c' H F. pose proof F as [N P]. unfold set in H. destruct (dget n (params c)) as [p|] eqn:G; [|inversion H; subst; auto].
  destruct (negb (same_type v (p_value p)) && negb (p_opt p)); [inversion H; subst; auto|].
  destruct (py_eq v (p_value p)); [|destruct (py_eq v _)]; inversion H; subst; clear H; unfold flags, due in *; cbn [pend pch vch].
  - auto.
  - split; [apply del_nodup; auto|]. destruct (ddel n (pend c)) as [|x l]; cbn [length].
    + cbn. intuition congruence.
    + replace (0 <? Z.of_nat (S (length l))) with true by (symmetry; apply Z.ltb_lt; lia). split; auto. intros _. left. discriminate.
  - split; [apply put_nodup; auto|]. split; auto. intros _. left. intro E. assert (I : In n (map fst (dput n ((match dget n (pend c) with Some (o, _) => o | None => p_value p end), v) (pend c)))) by (apply put_keys; auto). rewrite E in I. destruct I.
Qed.
Lemma set_frame : forall n v c o c' m, set n v c = (o, c') -> m <> n -> current c' m = current c m /\ dget m (pend c') = dget m (pend c) \/ ~ NoDup (map fst (pend c)).
Proof.
  intros n v c o c' m H NM. unfold set in H. destruct (dget n (params c)) as [p|] eqn:G; [|inversion H; subst; auto].
  destruct (negb (same_type v (p_value p)) && negb (p_opt p)); [inversion H; subst; auto|].
  assert (E : str_eqb n m = false) by (destruct (str_eqb_spec n m); congruence).
  destruct (py_eq v (p_value p)); [|destruct (py_eq v _)]; inversion H; subst; clear H; rewrite current_put, E; cbn [pend].
  - left. auto.
  - destruct (dget m (pend c)) eqn:D.
    + left. split; auto. clear -D E. induction (pend c) as [|[k b] d IH]; cbn in *; [discriminate|]. destruct (str_eqb_spec k n) as [->|]; cbn.
      * rewrite E in D. auto.
      * destruct (str_eqb k m); auto.
    + left. split; auto. apply dget_none. intro I. apply del_keys in I. apply dget_none in D. auto.
  - left. rewrite dget_put, E. auto.
Qed.
Lemma set_keeps_names : forall n v c o c' m, set n v c = (o, c') -> (dget m (params c') = None <-> dget m (params c) = None).
Proof.
  intros n v c o c' m H. unfold set in H. destruct (dget n (params c)) as [p|] eqn:G; [|inversion H; subst; tauto].
  destruct (negb (same_type v (p_value p)) && negb (p_opt p)); [inversion H; subst; tauto|].
  assert (K : dget m (dput n (set_value v p) (params c)) = None <-> dget m (params c) = None).
  { rewrite dget_put. destruct (str_eqb_spec n m) as [<-|]; [rewrite G; split; discriminate|tauto]. }
  destruct (py_eq v (p_value p)); [|destruct (py_eq v _)]; inversion H; subst; auto.
Qed.
Lemma exec_flags : forall p c, flags c -> flags (snd (exec p c)).
Proof.
  induction p; intros c F; cbn [exec]; auto.
  - destruct (set n v c) as [o c'] eqn:S. cbn. eapply set_flags; eauto.
  - specialize (IHp1 c F). destruct (exec p1 c) as [[e|] c1]; cbn in *; auto.
  - cbn [snd]. auto.
  - unfold enter. destruct (dget n (params c)) as [q|]; auto. destruct (negb _ && negb _); auto.
    specialize (IHp (mkC (dput n (set_value v q) (params c)) (pend c) (pch c) (vch c) (loaded c)) F). destruct (exec p _) as [o c2]. cbn [snd] in *.
    unfold leave. destruct (dget n (params c2)); auto.
Qed.
(** Parameters of the enclosing set_temp blocks are left alone, the others stay tracked. *)
Lemma exec_tracks : forall p held base c, clean held p -> flags c -> (forall m, ~ In m held -> tracked base c m) ->
  (forall m, ~ In m held -> tracked base (snd (exec p c)) m) /\
  (forall m, In m held -> current (snd (exec p c)) m = current c m /\ dget m (pend (snd (exec p c))) = dget m (pend c)) /\
  (forall m, dget m (params (snd (exec p c))) = None <-> dget m (params c) = None).
Proof.
  induction p; intros held base c C F T; cbn [exec clean] in *.
  - cbn. split; auto. split; auto. tauto.
  - cbn. split; auto. split; auto. tauto.
  - destruct (set n v c) as [o c'] eqn:S. cbn [snd]. split; [|split].
    + intros m M. eapply set_tracks; eauto. apply F.
    + intros m M. destruct (set_frame n v c o c' m S) as [|X]; auto; [intro; subst; auto|]. exfalso. apply X. apply F.
    + intro m. eapply set_keeps_names; eauto.
  - destruct C as [C1 C2]. destruct (IHp1 held base c C1 F T) as (A1 & A2 & A3). pose proof (exec_flags p1 c F) as F1. destruct (exec p1 c) as [[e|] c1]; cbn [snd] in *; auto.
    destruct (IHp2 held base c1 C2 F1 A1) as (B1 & B2 & B3). split; auto. split; [|intro m; rewrite B3; auto]. intros m M. destruct (A2 m M), (B2 m M). split; congruence.
  - cbn [snd]. apply IHp; auto.
  - unfold enter. destruct (dget n (params c)) as [q|] eqn:G; [|cbn; split; auto; split; auto; tauto].
    destruct (negb (same_type v (p_value q)) && negb (p_opt q)); [cbn; split; auto; split; auto; tauto|].
    set (c1 := mkC (dput n (set_value v q) (params c)) (pend c) (pch c) (vch c) (loaded c)).
    assert (E : forall m, m <> n -> current c1 m = current c m) by (intros m M; unfold c1; rewrite current_put; destruct (str_eqb_spec n m); [congruence|auto]).
    assert (T1 : forall m, ~ In m (n :: held) -> tracked base c1 m).
    { intros m M. assert (m <> n /\ ~ In m held) as [M1 M2] by (split; intro X; apply M; [left|right]; auto). specialize (T m M2). unfold tracked in *. rewrite E by auto. exact T. }
    destruct (IHp (n :: held) base c1 C F T1) as (A1 & A2 & A3). destruct (exec p c1) as [o c2]. cbn [snd] in *.
    assert (G2 : dget n (params c2) <> None). { intro X. apply A3 in X. unfold c1 in X. cbn [params] in X. rewrite dget_put, str_eqb_refl in X. discriminate. }
    unfold leave. destruct (dget n (params c2)) as [q2|] eqn:D; [|congruence].
    assert (E2 : forall m, current (mkC (dput n (set_value (p_value q) q2) (params c2)) (pend c2) (pch c2) (vch c2) (loaded c2)) m = if str_eqb n m then current c n else current c2 m).
    { intro m. rewrite current_put. destruct (str_eqb_spec n m); auto. unfold current. rewrite G. auto. }
    split; [|split].
    + intros m M. destruct (str_eqb_spec n m) as [<-|NM].
      * destruct (A2 n (or_introl eq_refl)) as [_ P]. specialize (T n M). unfold tracked in *. rewrite E2, str_eqb_refl. cbn [pend] in *. rewrite P. exact T.
      * assert (M' : ~ In m (n :: held)) by (intros [X|X]; auto). specialize (A1 m M'). unfold tracked in *. rewrite E2. destruct (str_eqb_spec n m); [congruence|]. exact A1.
    + intros m M. destruct (A2 m (or_intror M)) as [B1 B2]. rewrite E2. cbn [pend]. split; auto. destruct (str_eqb_spec n m) as [<-|NM]; auto. rewrite B1. apply E. auto.
    + intro m. cbn [params]. rewrite dget_put. destruct (str_eqb_spec n m) as [<-|NM]; [rewrite G; split; discriminate|]. rewrite A3. unfold c1. cbn [params]. rewrite dget_put. destruct (str_eqb_spec n m); [congruence|tauto].
Qed.
Lemma tracked_self : forall c m, pend c = [] -> tracked (current c) c m.
Proof. intros c m P. unfold tracked. rewrite P. cbn. destruct (current c m); auto. apply py_eq_refl. Qed.
Lemma tracked_pending : forall base c, flags c -> (forall n, tracked base c n) -> pending_exactly base c.
Proof.
  intros base c [N _] T. split; auto. split.
  - intro n. specialize (T n). unfold tracked in T. rewrite <- dget_in. destruct (current c n) as [v|]; [|destruct (base n); [destruct T|]].
    + destruct (base n) as [b|]; [|destruct T]. destruct (dget n (pend c)) as [[o w]|].
      * split; [intros _; exists v, b; tauto|discriminate].
      * split; [congruence|]. intros (v' & b' & E1 & E2 & E3). inversion E1; inversion E2; subst. congruence.
    + rewrite T. split; [congruence|]. intros (v' & b' & E1 & _). discriminate.
  - intros n o v I. specialize (T n). unfold tracked in T. rewrite (in_dget _ _ _ N I) in T. destruct (current c n) as [w|]; [|destruct (base n); [destruct T|discriminate]].
    destruct (base n) as [b|]; [|destruct T]. exists w, b. tauto.
Qed.
Lemma save_flags : forall ro now c d c' d', save ro now c d = (c', d') -> flags c -> flags c'.
Proof.
  intros ro now c d c' d' H F. unfold save in H. destruct ro; [inversion H; subst; auto|].
  assert (F1 : flags (mkC (params c) [] (if vch c then pch c else false) (vch c) (loaded c))).
  { destruct F as [N P]. split; [constructor|]. unfold due in *. cbn. destruct (vch c); [|intuition discriminate]. split; auto. intros _. apply P. auto. }
  assert (F2 : forall ps l, flags (mkC ps [] false false l)) by (intros; split; [constructor|]; unfold due; cbn; intuition discriminate).
  destruct (match d with Some (m, _) => _ | None => false end); cbn [pch params loaded] in H.
  - destruct (if vch c then pch c else false) eqn:X; inversion H; subst; auto.
  - destruct (pch c); inversion H; subst; auto.
Qed.
Lemma save_params : forall ro now c d c' d', save ro now c d = (c', d') -> params c' = params c.
Proof.
  intros ro now c d c' d' H. unfold save in H. destruct ro; [inversion H; subst; auto|].
  destruct (match d with Some (m, _) => _ | None => false end); cbn [pch params loaded] in H.
  - destruct (if vch c then pch c else false); inversion H; subst; auto.
  - destruct (pch c); inversion H; subst; auto.
Qed.
Lemma save_clears : forall now c d c' d', flags c -> save false now c d = (c', d') -> pend c' = [].
Proof.
  intros now c d c' d' [N P] H. unfold save in H. destruct (match d with Some (m, _) => _ | None => false end); cbn [pch params loaded] in H.
  - destruct (if vch c then pch c else false); inversion H; subst; auto.
  - destruct (pch c) eqn:E; inversion H; subst; auto. destruct (pend c') eqn:L; auto. assert (false = true) by (apply P; left; rewrite L; discriminate). discriminate.
Qed.
