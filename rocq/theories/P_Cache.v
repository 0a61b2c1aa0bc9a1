(** Proofs about the caches. *)
From Coq Require Import List Arith ZArith Bool Lia Permutation.
From Verif Require Import M_Cache S_Cache.
Import ListNotations.

(** ** Eviction *)
Section Evict.
Context {A : Type} (size mtime : A -> Z) (stuck : A -> bool).
Notation total := (total size). Notation min_mtime := (min_mtime mtime). Notation index_of := (index_of mtime).
Notation evict := (evict size mtime stuck).

Lemma total_cons : forall e es, total (e :: es) = (size e + total es)%Z.
Proof. reflexivity. Qed.
Lemma total_perm : forall a b, Permutation a b -> total a = total b.
Proof. induction 1; rewrite ?total_cons; lia. Qed.
Lemma min_in : forall es, es <> [] -> exists e, In e es /\ mtime e = min_mtime es.
Proof.
  induction es as [|e es IH]; intro H; [congruence|]. destruct es as [|f es]; [exists e; cbn; auto|].
  destruct IH as (g & G1 & G2); [discriminate|]. change (min_mtime (e :: f :: es)) with (Z.min (mtime e) (min_mtime (f :: es))).
  destruct (Z.le_ge_cases (mtime e) (min_mtime (f :: es))).
  - exists e. split; [left; auto|]. lia.
  - exists g. split; [right; auto|]. lia.
Qed.
Lemma min_le : forall es e, In e es -> (min_mtime es <= mtime e)%Z.
Proof.
  induction es as [|e es IH]; intros g H; [destruct H|]. destruct es as [|f es]; [destruct H as [->|[]]; cbn; lia|].
  change (min_mtime (e :: f :: es)) with (Z.min (mtime e) (min_mtime (f :: es))). destruct H as [->|H]; [lia|]. apply IH in H. lia.
Qed.
Lemma index_spec : forall es t, (exists e, In e es /\ mtime e = t) ->
  exists e, nth_error es (index_of t es) = Some e /\ mtime e = t /\ forall j g, j < index_of t es -> nth_error es j = Some g -> mtime g <> t.
Proof.
  induction es as [|e es IH]; intros t (g & G1 & G2); [destruct G1|]. cbn. destruct (Z.eqb_spec (mtime e) t).
  - exists e. repeat split; auto. intros j g' H. lia.
  - destruct (IH t) as (h & H1 & H2 & H3). { exists g. split; auto. destruct G1; [congruence|auto]. }
    exists h. repeat split; auto. intros [|j] g' L N; cbn in N; [congruence|]. apply (H3 j); auto. lia.
Qed.
Lemma oldest_spec : forall es, es <> [] -> exists a e b, es = a ++ e :: b /\ nth_error es (index_of (min_mtime es) es) = Some e /\
  remove_at (index_of (min_mtime es) es) es = a ++ b /\ (forall g, In g es -> (mtime e <= mtime g)%Z) /\ Forall (fun g => (mtime e < mtime g)%Z) a.
Proof.
  intros es H. destruct (index_spec es (min_mtime es) (min_in es H)) as (e & E1 & E2 & E3).
  set (i := index_of (min_mtime es) es) in *. destruct (nth_error_split es i E1) as (a & b & E & L). exists a, e, b.
  repeat split; auto.
  - unfold remove_at. rewrite E. rewrite <- L. rewrite firstn_app, Nat.sub_diag, firstn_all. cbn [firstn]. rewrite app_nil_r. f_equal.
    change (e :: b) with ([e] ++ b). rewrite app_assoc. replace (S (length a)) with (length (a ++ [e])) by (rewrite app_length; cbn; lia).
    rewrite skipn_app, Nat.sub_diag, skipn_all. reflexivity.
  - intros g G. rewrite E2. apply min_le; auto.
  - apply Forall_forall. intros g G. destruct (In_nth_error _ _ G) as [j J]. assert (j < length a) by (apply nth_error_Some; congruence).
    assert (N : nth_error es j = Some g) by (rewrite E, nth_error_app1; auto). assert (mtime g <> min_mtime es) by (apply (E3 j); auto; lia).
    assert ((min_mtime es <= mtime g)%Z) by (apply min_le; rewrite E; apply in_or_app; auto). lia.
Qed.

(** what the loop does: it removes [gone] one by one *)
Lemma evict_spec : forall n limit es es', length es <= S n -> evict n limit es = Some es' ->
  exists gone, Permutation es (gone ++ es') /\ ((total es' <= limit)%Z \/ length es' <= 1) /\
    (forall g k, In g gone -> In k es' -> (mtime g <= mtime k)%Z) /\
    (forall l g, gone = l ++ [g] -> (limit < total (g :: es'))%Z /\ 1 <= length es') /\
    Forall (fun g => stuck g = false) gone.
Proof.
  induction n as [|n IH]; intros limit es es' L H; cbn [M_Cache.evict] in H.
  - assert (E : (length es <=? 1) = true) by (apply Nat.leb_le; lia). rewrite E, orb_true_r in H. inversion H; subst. exists []. cbn.
    repeat split; auto; try contradiction; try (apply Nat.leb_le in E; lia); destruct l; discriminate.
  - destruct ((total es <=? limit)%Z || (length es <=? 1)) eqn:C.
    + inversion H; subst. exists []. cbn. apply orb_true_iff in C. rewrite Z.leb_le, Nat.leb_le in C. repeat split; auto; try contradiction; destruct l; discriminate.
    + apply orb_false_iff in C. destruct C as [C1 C2]. apply Z.leb_gt in C1. apply Nat.leb_gt in C2.
      destruct (oldest_spec es) as (a & e & b & E & N & RM & OL & _); [destruct es; cbn in *; [lia|discriminate]|].
      cbv zeta in H. rewrite N, RM in H. destruct (stuck e) eqn:ST; [discriminate|].
      assert (LE : length es = S (length (a ++ b))) by (rewrite E, !app_length; cbn; lia).
      destruct (IH limit (a ++ b) es') as (gone & P & D & O & M & S); auto; [lia|].
      exists (e :: gone). assert (P' : Permutation es (e :: gone ++ es')). { rewrite E. rewrite <- P. symmetry. apply Permutation_middle. }
      split; [exact P'|]. split; [auto|]. split; [|split].
      * intros g k [->|G] K; [|apply O; auto]. apply OL. apply (Permutation_in k (Permutation_sym P')). right. apply in_or_app. auto.
      * intros l g G. destruct l as [|x l]; cbn in G; inversion G; subst.
        -- cbn [app] in P'. split; [rewrite <- (total_perm _ _ P'); lia|]. apply Permutation_length in P'. cbn in P'. lia.
        -- apply (M l g). reflexivity.
      * constructor; auto.
Qed.
Lemma evict_some : forall n limit es, (forall e, In e es -> stuck e = false) -> exists es', evict n limit es = Some es'.
Proof.
  induction n as [|n IH]; intros limit es S; cbn [M_Cache.evict]; destruct ((total es <=? limit)%Z || (length es <=? 1)) eqn:C; eauto.
  destruct es as [|x es]; [cbn in C; rewrite orb_true_r in C; discriminate|].
  destruct (oldest_spec (x :: es)) as (a & e & b & E & N & RM & _); [discriminate|]. cbv zeta. rewrite N, RM. rewrite S.
  - apply IH. intros g G. apply S. rewrite E. apply in_app_or in G. apply in_or_app. cbn. tauto.
  - rewrite E. apply in_or_app. cbn. auto.
Qed.
(** the one that is newer than all others stays *)
Lemma evict_keeps : forall n limit a e b es', (forall g, In g (a ++ b) -> (mtime g < mtime e)%Z) -> evict n limit (a ++ e :: b) = Some es' -> In e es'.
Proof.
  induction n as [|n IH]; intros limit a e b es' N H; cbn [M_Cache.evict] in H.
  - destruct (_ || _) in H; inversion H; subst; apply in_or_app; cbn; auto.
  - destruct ((total (a ++ e :: b) <=? limit)%Z || (length (a ++ e :: b) <=? 1)) eqn:C; [inversion H; subst; apply in_or_app; cbn; auto|].
    apply orb_false_iff in C. destruct C as [_ C]. apply Nat.leb_gt in C.
    destruct (oldest_spec (a ++ e :: b)) as (a' & o & b' & E & NT & RM & OL & _); [destruct a; discriminate|].
    cbv zeta in H. rewrite NT, RM in H. destruct (stuck o); [discriminate|].
    assert (OE : (mtime o < mtime e)%Z).
    { destruct (a ++ b) as [|g ab] eqn:AB; [apply app_eq_nil in AB; destruct AB; subst; cbn in C; lia|].
      assert (G : In g (a ++ e :: b)). { assert (In g (a ++ b)) by (rewrite AB; left; auto). apply in_app_or in H0. apply in_or_app. cbn. tauto. }
      pose proof (OL g G). pose proof (N g (or_introl eq_refl)). lia. }
    assert (I : In e (a' ++ b')). { assert (In e (a' ++ o :: b')) by (rewrite <- E; apply in_or_app; cbn; auto). apply in_app_or in H0. apply in_or_app. cbn in H0.
      destruct H0 as [?|[->|?]]; auto. lia. }
    destruct (in_split _ _ I) as (u & v & UV). rewrite UV in H. apply IH in H; auto.
    intros g G. assert (GI : In g (a ++ e :: b)). { rewrite E. assert (In g (a' ++ b')). { rewrite UV. apply in_app_or in G. apply in_or_app. cbn. tauto. } apply in_app_or in H0. apply in_or_app. cbn. tauto. }
    apply in_app_or in GI. destruct GI as [GI|[GI|GI]]; [apply N; apply in_or_app; auto| |apply N; apply in_or_app; auto]. subst g.
    (* a second copy of e: impossible, it would be among a ++ b *)
    exfalso. assert (P : Permutation (a ++ e :: b) (o :: e :: u ++ v)).
    { rewrite E. transitivity (o :: a' ++ b'); [symmetry; apply Permutation_middle|]. constructor. rewrite UV. symmetry. apply Permutation_middle. }
    assert (P2 : Permutation (a ++ b) (o :: u ++ v)). { apply Permutation_cons_inv with e. transitivity (a ++ e :: b); [apply Permutation_middle|]. rewrite P. apply perm_swap. }
    assert (In e (a ++ b)). { apply (Permutation_in e (Permutation_sym P2)). right. auto. } apply N in H0. lia.
Qed.
End Evict.

(** ** The directory *)
Lemma names_put : forall e es, NoDup (names es) -> NoDup (names (put_entry e es)).
Proof.
  intros e es N. unfold names, put_entry. cbn [map]. constructor.
  - rewrite in_map_iff. intros (x & X1 & X2). apply filter_In in X2. destruct X2 as [_ X2]. rewrite X1, Nat.eqb_refl in X2. discriminate.
  - induction es as [|x es IH]; cbn; [constructor|]. inversion N; subst. destruct (negb _); cbn; auto. constructor; auto.
    rewrite in_map_iff. intros (y & Y1 & Y2). apply filter_In in Y2. apply H1. rewrite <- Y1. apply in_map. tauto.
Qed.
Lemma names_filter : forall p es, NoDup (names es) -> NoDup (names (filter p es)).
Proof.
  induction es as [|x es IH]; intro N; cbn; [constructor|]. inversion N; subst. destruct (p x); cbn; auto. constructor; auto.
  rewrite in_map_iff. intros (y & Y1 & Y2). apply filter_In in Y2. apply H1. rewrite <- Y1. apply in_map. tauto.
Qed.
Lemma names_perm : forall a b, Permutation a b -> NoDup (names a) -> NoDup (names b).
Proof. intros a b P N. eapply Permutation_NoDup; [apply Permutation_map; exact P|exact N]. Qed.
Lemma names_app_r : forall a b, NoDup (names (a ++ b)) -> NoDup (names b).
Proof. induction a as [|x a IH]; intros b N; cbn in N; auto. inversion N; auto. Qed.
Lemma fmanage_spec : forall limit es es', fmanage limit es = Done es' ->
  match limit with
  | None => es' = es
  | Some l => exists gone, Permutation es (gone ++ es') /\ ((total e_size es' <= l)%Z \/ length es' <= 1) /\
    (forall g k, In g gone -> In k es' -> (e_mtime g <= e_mtime k)%Z) /\
    (forall m g, gone = m ++ [g] -> (l < total e_size (g :: es'))%Z /\ 1 <= length es') /\ Forall (fun g => e_dir g = false) gone
  end.
Proof.
  intros limit es es'. unfold fmanage, manage. destruct limit as [l|]; [|intro H; inversion H; auto].
  destruct (evict e_size e_mtime e_dir (length es) l es) as [es1|] eqn:E; intro H; inversion H; subst es1.
  apply (evict_spec e_size e_mtime e_dir (length es)); auto.
Qed.
Lemma find_entry_some : forall n es e, find_entry n es = Some e -> In e es /\ e_name e = n.
Proof. intros n es e H. apply find_some in H. destruct H as [H1 H2]. apply Nat.eqb_eq in H2. auto. Qed.
Lemma fmanage_forever : forall limit es, (forall e, In e es -> e_dir e = false) -> fmanage limit es <> Forever.
Proof.
  intros limit es H. unfold fmanage, manage. destruct limit as [l|]; [|discriminate].
  destruct (evict_some e_size e_mtime e_dir (length es) l es H) as [es' E]. rewrite E. discriminate.
Qed.
Definition no_dirs (es : list entry) : Prop := forall e, In e es -> e_dir e = false.
Lemma no_dirs_put : forall e es, e_dir e = false -> no_dirs es -> no_dirs (put_entry e es).
Proof. intros e es E N g [<-|G]; auto. apply filter_In in G. apply N. tauto. Qed.
Lemma fmanage_sub : forall limit es es' e, fmanage limit es = Done es' -> In e es' -> In e es.
Proof.
  intros limit es es' e H I. apply fmanage_spec in H. destruct limit as [l|]; [|congruence]. destruct H as (gone & P & _).
  apply (Permutation_in e (Permutation_sym P)). apply in_or_app. auto.
Qed.
Lemma no_dirs_manage : forall limit order es es', listing order -> no_dirs es -> fmanage limit (order es) = Done es' -> no_dirs es'.
Proof. intros limit order es es' O N H e I. apply N. apply (Permutation_in e (O es)). eapply fmanage_sub; eauto. Qed.
Lemma no_dirs_order : forall order es, listing order -> no_dirs es -> no_dirs (order es).
Proof. intros order es O N e I. apply N. apply (Permutation_in e (O es)). auto. Qed.
Lemma flat_step : forall limit o es, proper o -> flat o -> no_dirs es ->
  match fstep limit o es with Done es' => no_dirs es' | Failed _ es' => no_dirs es' | Forever => False end.
Proof.
  intros limit o es P F N. destruct o as [n now order|n now order|d sz now order|n|n k now|n]; cbn [fstep proper flat] in *; try contradiction.
  - assert (Q : match fmanage limit (order (put_entry (mkE n 0 now false) es)) with Done es' => no_dirs es' | Failed _ es' => no_dirs es' | Forever => False end).
    { destruct (fmanage _ _) eqn:M.
      - eapply no_dirs_manage; [exact P| |exact M]. apply no_dirs_put; auto.
      - unfold fmanage in M. destruct (manage _ _ _ _ _); discriminate.
      - eapply fmanage_forever; [|exact M]. apply no_dirs_order; auto. apply no_dirs_put; auto. }
    destruct (find_entry n es) as [e|] eqn:E; auto. apply find_entry_some in E. rewrite (N e) by tauto. auto.
  - assert (Q : forall es1, no_dirs es1 -> match fmanage limit (order es1) with Done es' => no_dirs es' | Failed _ es' => no_dirs es' | Forever => False end).
    { intros es1 N1. destruct (fmanage _ _) eqn:M.
      - eapply no_dirs_manage; [exact P| |exact M]. auto.
      - unfold fmanage in M. destruct (manage _ _ _ _ _); discriminate.
      - eapply fmanage_forever; [|exact M]. apply no_dirs_order; auto. }
    destruct (find_entry n es) as [e|] eqn:E; [|exact (Q _ (no_dirs_put (mkE n 0 now false) es eq_refl N))]. apply find_entry_some in E. rewrite (N e) by tauto. exact (Q es N).
  - destruct (find_entry n es) as [e|]; auto. destruct (e_dir e); auto.
  - destruct (find_entry n es) as [e|] eqn:E; auto. apply find_entry_some in E. apply no_dirs_put; auto. cbn. apply N. tauto.
  - destruct (find_entry n es) as [e|]; auto. destruct (e_dir e); auto. intros g G. apply filter_In in G. apply N. tauto.
Qed.
Lemma flat_run : forall limit l es, Forall proper l -> Forall flat l -> no_dirs es -> frun limit l es <> Forever.
Proof.
  induction l as [|o l IH]; intros es P F N; cbn [frun]; [discriminate|]. inversion P; inversion F; subst.
  pose proof (flat_step limit o es H1 H5 N). destruct (fstep limit o es); auto; contradiction.
Qed.
(** without a limit a file is lost only by remove() *)
Lemma keep_put : forall n e es, In n (names es) -> In n (names (put_entry e es)).
Proof.
  intros n e es H. unfold names, put_entry. cbn [map]. destruct (Nat.eq_dec (e_name e) n); [left; auto|]. right.
  unfold names in H. apply in_map_iff in H. destruct H as (x & X1 & X2). apply in_map_iff. exists x. split; auto. apply filter_In. split; auto.
  destruct (Nat.eqb_spec (e_name x) (e_name e)); auto. congruence.
Qed.
Lemma keep_order : forall n order es, listing order -> In n (names es) -> In n (names (order es)).
Proof. intros n order es O H. unfold names. apply (Permutation_in n (Permutation_map e_name (Permutation_sym (O es)))). auto. Qed.
Lemma unlimited_step : forall o es n, proper o -> (forall m, o = FRemove m -> m <> n) -> In n (names es) ->
  match fstep None o es with Done es' | Failed _ es' => In n (names es') | Forever => False end.
Proof.
  intros o es n P NR H. destruct o as [m now order|m now order|d sz now order|m|m k now|m]; cbn [fstep proper fmanage manage] in *.
  - assert (Q : In n (names (order (put_entry (mkE m 0 now false) es)))) by (apply keep_order; auto using keep_put).
    destruct (find_entry m es) as [e|]; auto. destruct (e_dir e); auto.
  - assert (Q : In n (names (order (put_entry (mkE m 0 now false) es)))) by (apply keep_order; auto using keep_put).
    destruct (find_entry m es) as [e|]; auto. destruct (e_dir e); auto. apply keep_order; auto.
  - assert (Q : In n (names (order (put_entry (mkE d sz now true) es)))) by (apply keep_order; auto using keep_put).
    destruct (find_entry d es) as [e|]; auto. destruct (e_dir e); auto.
  - destruct (find_entry m es) as [e|]; auto. destruct (e_dir e); auto.
  - destruct (find_entry m es) as [e|]; auto using keep_put.
  - destruct (find_entry m es) as [e|]; auto. destruct (e_dir e); auto. unfold names in *. apply in_map_iff in H. destruct H as (x & X1 & X2). apply in_map_iff. exists x. split; auto. apply filter_In. split; auto. destruct (Nat.eqb_spec (e_name x) m); auto. exfalso. apply (NR m); congruence.
Qed.
Lemma unlimited_run : forall l es n, Forall proper l -> ~ In (FRemove n) l -> In n (names es) -> exists es', frun None l es = Done es' /\ In n (names es').
Proof.
  induction l as [|o l IH]; intros es n P NR H; cbn [frun]; [eauto|]. inversion P; subst.
  pose proof (unlimited_step o es n H2) as K. specialize (K ltac:(intros m E; subst; intro; subst; apply NR; left; auto) H).
  destruct (fstep None o es); try contradiction; apply IH; auto; intro; apply NR; right; auto.
Qed.

(** ** Memory files *)
Lemma nth_map_seq : forall (g : nat -> Z) n i d, i < n -> nth i (map g (seq 0 n)) d = g i.
Proof. intros g n i d H. rewrite (nth_indep _ d (g 0)) by (rewrite map_length, seq_length; auto). rewrite map_nth, seq_nth by auto. reflexivity. Qed.
Lemma bwrite_eq : forall d s p, bwrite d p s = written d s p.
Proof.
  intros d s p. unfold bwrite, written. destruct s as [|x s]; [reflexivity|]. set (w := x :: s). assert (LW : 1 <= length w) by (unfold w; cbn; lia). clearbody w.
  assert (L1 : length (firstn p (d ++ repeat 0%Z (p - length d))) = p) by (rewrite firstn_length, app_length, repeat_length; lia).
  apply nth_ext with (d := 0%Z) (d' := 0%Z).
  - rewrite map_length, seq_length, !app_length, L1, skipn_length. lia.
  - intros i Hi. rewrite !app_length, L1, skipn_length in Hi.
    rewrite nth_map_seq by lia.
    destruct (Nat.leb_spec p i); cbn [andb].
    + rewrite app_nth2 by lia. rewrite L1. destruct (Nat.ltb_spec i (p + length w)).
      * rewrite app_nth1 by lia. reflexivity.
      * rewrite app_nth2 by lia. rewrite <- (firstn_skipn (p + length w) d) at 2. rewrite (app_nth2 (firstn (p + length w) d)) by (rewrite firstn_length; lia).
        rewrite firstn_length. f_equal. lia.
    + rewrite app_nth1 by lia. transitivity (nth i (d ++ repeat 0%Z (p - length d)) 0%Z).
      { rewrite <- (firstn_skipn p (d ++ repeat 0%Z (p - length d))) at 2. rewrite app_nth1; auto. lia. }
      destruct (Nat.lt_ge_cases i (length d)); [apply app_nth1; auto|]. rewrite app_nth2 by lia. rewrite (nth_overflow d) by lia. apply nth_repeat.
Qed.
Lemma lookup_cons : forall n k f c, lookup n ((k, f) :: c) = if k =? n then Some f else lookup n c.
Proof. intros. unfold lookup. cbn [find fst]. destruct (k =? n); reflexivity. Qed.
Lemma lookup_store : forall n m f c, lookup n (store m f c) = if n =? m then match lookup n c with Some _ => Some f | None => None end else lookup n c.
Proof.
  induction c as [|[k g] c IH]; [destruct (n =? m); reflexivity|]. cbn [store map fst]. fold (store m f c).
  destruct (Nat.eqb_spec k m).
  - subst. rewrite !lookup_cons. destruct (Nat.eqb_spec m n), (Nat.eqb_spec n m); try congruence; try lia.
  - rewrite !lookup_cons. destruct (Nat.eqb_spec k n); [subst; destruct (Nat.eqb_spec n m); [lia|auto]|auto].
Qed.
Lemma lookup_app : forall n c c', lookup n (c ++ c') = match lookup n c with Some f => Some f | None => lookup n c' end.
Proof. induction c as [|[k g] c IH]; intro c'; [reflexivity|]. cbn [app]. rewrite !lookup_cons. destruct (k =? n); auto. Qed.
Lemma lookup_remove : forall n m c, lookup n (filter (fun x => negb (fst x =? m)) c) = if n =? m then None else lookup n c.
Proof.
  induction c as [|[k g] c IH]; [cbn; destruct (n =? m); reflexivity|]. cbn [filter fst]. destruct (Nat.eqb_spec k m); cbn [negb].
  - subst. rewrite IH, lookup_cons. destruct (Nat.eqb_spec n m), (Nat.eqb_spec m n); auto; lia.
  - rewrite !lookup_cons, IH. destruct (Nat.eqb_spec k n), (Nat.eqb_spec n m); auto; lia.
Qed.

(** the cache and the ordinary files agree *)
Definition agree1 (f : option mfile) (d : option (list Z)) (h : option (kind * nat)) : Prop :=
  match f, d with
  | Some f, Some d => f_data f = d /\ match h with None => f_closed f = true /\ f_pos f = 0 | Some (k, p) => f_closed f = false /\ f_pos f = p end
  | None, None => h = None
  | _, _ => False
  end.
Definition agree (c : mcache) (s : fs) : Prop := forall n, agree1 (lookup n c) (content s n) (handle s n).
Lemma set_same : forall B (m : nat -> B) n b, set m n b n = b.
Proof. intros. unfold set. rewrite Nat.eqb_refl. auto. Qed.
Lemma agree_store : forall c s n f d h, agree c s -> lookup n c <> None -> agree1 (Some f) (Some d) h ->
  agree (store n f c) (mkS (set (content s) n (Some d)) (set (handle s) n h)).
Proof.
  intros c s n f d h AG L H k. rewrite lookup_store. cbn [content handle]. unfold set. destruct (Nat.eqb_spec k n); [|apply AG].
  subst. destruct (lookup n c); [exact H|congruence].
Qed.
Lemma set_id : forall B (m : nat -> B) n b k, m n = b -> set m n b k = m k.
Proof. intros. unfold set. destruct (Nat.eqb_spec k n); congruence. Qed.
Lemma agree_ext : forall c s s', agree c s -> (forall k, content s' k = content s k) -> (forall k, handle s' k = handle s k) -> agree c s'.
Proof. intros c s s' A E1 E2 k. rewrite E1, E2. apply A. Qed.
Lemma first_line_eq : forall d, first_line d = line d.
Proof.
  induction d as [|b d IH]; [reflexivity|]. unfold line in *. cbn [first_line newline_at]. destruct (b =? 10)%Z; [reflexivity|].
  rewrite IH. destruct (newline_at d); reflexivity.
Qed.
Lemma call_ok : forall now cl f k p d, f_closed f = false -> f_data f = d -> f_pos f = p ->
  (match cl with
   | Read _ | ReadLine => k = R | Write _ => k = W
   | Seek off w => (w = 0 \/ w = 1 \/ w = 2)%Z /\ (0 <= target d p off w)%Z
   | Truncate (Some n) => k = W /\ (0 <= n <= Z.of_nat (length d))%Z
   | Truncate None => k = W /\ p <= length d
   | Tell | Flush => True | Iterate => False end) ->
  exists f' a, mcall now cl f = (f', a) /\ f_closed f' = false /\
    exists a', file_call cl d (write_pos k cl d p) = (f_data f', f_pos f', a') /\ a = match cl with Seek _ _ => Nothing | _ => a' end.
Proof.
  intros now cl f k p d C D P H. subst d p. unfold mcall. rewrite C. cbn [andb].
  assert (WP : k = W \/ (forall s, cl <> Write s) -> write_pos k cl (f_data f) (f_pos f) = f_pos f).
  { intros [->|N]; [destruct cl; reflexivity|]. unfold write_pos. destruct k, cl; try reflexivity. exfalso. apply (N s). auto. }
  rewrite WP by (destruct cl; try (right; discriminate); left; auto).
  destruct cl as [n| |s|off w| |n| |]; cbn [file_call]; try contradiction.
  - eexists _, _. split; [reflexivity|]. split; [exact C|]. eexists. split; [|reflexivity]. reflexivity.
  - eexists _, _. split; [reflexivity|]. split; [exact C|]. eexists. rewrite <- first_line_eq. split; reflexivity.
  - eexists _, _. split; [reflexivity|]. split; [exact C|]. eexists. split; [|reflexivity]. cbn [f_data f_pos set_data]. rewrite bwrite_eq. reflexivity.
  - destruct H as [W0 T]. assert (B : bseek f off w = Ok (Z.to_nat (target (f_data f) (f_pos f) off w))).
    { unfold bseek. unfold target in *. destruct W0 as [->|[->| ->]]; cbn in *; auto. destruct (Z.ltb_spec off 0); [lia|auto]. }
    rewrite B. eexists _, _. split; [reflexivity|]. split; [exact C|]. eexists. split; reflexivity.
  - eexists _, _. split; [reflexivity|]. split; [exact C|]. eexists. split; reflexivity.
  - destruct n as [n|].
    + destruct H as [_ H]. destruct (Z.ltb_spec n 0); [lia|]. eexists _, _. split; [reflexivity|]. split; [exact C|]. eexists. cbn [f_data f_pos set_data].
      replace (Z.to_nat n - length (f_data f)) with 0 by lia. cbn [repeat]. rewrite app_nil_r. split; [reflexivity|]. cbv beta. rewrite Z2Nat.id by lia. auto.
    + destruct (Z.ltb_spec (Z.of_nat (f_pos f)) 0); [lia|]. eexists _, _. split; [reflexivity|]. split; [exact C|]. eexists. cbn [f_data f_pos set_data].
      rewrite Nat2Z.id. replace (f_pos f - length (f_data f)) with 0 by lia. cbn [repeat]. rewrite app_nil_r. split; reflexivity.
  - eexists _, _. split; [reflexivity|]. split; [reflexivity|]. eexists. split; reflexivity.
Qed.
Lemma copen_ok : forall n k c s, agree c s -> handle s n = None -> match k with R => content s n <> None | W => True | A => False end ->
  exists c', mstep None 0 (MOpen n k) c = (c', Opened) /\ agree c' (fst (file_step (MOpen n k) s)) /\ snd (file_step (MOpen n k) s) = Opened.
Proof.
  intros n k c s AG HN HK. cbn [mstep file_step]. pose proof (AG n) as AN. rewrite HN in AN. unfold agree1 in AN. unfold copen.
  destruct k; [| |contradiction].
  - destruct (content s n) as [d|] eqn:CN; [|congruence]. destruct (lookup n c) as [f|] eqn:L; [|contradiction]. destruct AN as (D & C & P).
    cbn [writing]. rewrite L. unfold mopen. rewrite C. eexists. split; [reflexivity|]. split; [|reflexivity]. cbn [fst].
    eapply agree_ext; [eapply agree_store with (d := d) (h := Some (R, 0)); eauto; [congruence|cbn; auto]| |]; intro j; cbn [content handle]; auto.
    symmetry. apply set_id. auto.
  - cbn [writing mmanage manage]. set (c1 := match lookup n c with Some _ => c | None => c ++ [(n, new_file)] end).
    assert (L1 : exists f, lookup n c1 = Some f /\ f_closed f = true /\ f_pos f = 0).
    { unfold c1. destruct (lookup n c) as [f|] eqn:L.
      - exists f. split; auto. destruct (content s n); [tauto|contradiction].
      - exists new_file. rewrite lookup_app, L, lookup_cons, Nat.eqb_refl. auto. }
    destruct L1 as (f & L1 & C & P). rewrite L1. rewrite lookup_store, Nat.eqb_refl, L1. unfold mopen. cbn [f_closed set_data]. rewrite C.
    eexists. split; [reflexivity|]. split; [|reflexivity]. cbn [fst].
    intro j. rewrite !lookup_store. cbn [content handle]. unfold set. destruct (Nat.eqb_spec j n).
    + subst j. rewrite L1. cbn. auto.
    + unfold c1. pose proof (AG j) as AJ. destruct (lookup n c) as [g|] eqn:LN; [exact AJ|]. rewrite lookup_app, lookup_cons. destruct (Nat.eqb_spec n j); [lia|].
      destruct (lookup j c); exact AJ.
Qed.
Lemma step_ok : forall now o c s, agree c s -> ordinary o s ->
  exists c', mstep None now o c = (c', forget_seek o (snd (file_step o s))) /\ agree c' (fst (file_step o s)).
Proof.
  intros now o c s AG O. destruct o as [n k|n cl|n|n]; cbn [ordinary] in O.
  - destruct (copen_ok n k c s AG (proj1 O) (proj2 O)) as (c' & E & AG' & SN). exists c'. cbn [forget_seek]. rewrite SN. auto.
  - pose proof (AG n) as AN. destruct (handle s n) as [[k p]|] eqn:HN; [|contradiction]. destruct (content s n) as [d|] eqn:CN; [|contradiction].
    unfold agree1 in AN. destruct (lookup n c) as [f|] eqn:L; [|contradiction]. destruct AN as (D & C & P).
    destruct (call_ok now cl f k p d C D P) as (f' & a & E & C' & a' & FC & EA). { destruct cl; auto. }
    cbn [mstep file_step]. rewrite L, E, HN, CN, FC. cbn [fst snd]. exists (store n f' c). split; [|apply agree_store; [exact AG|congruence|cbn; auto]].
    f_equal. subst a. destruct cl; reflexivity.
  - pose proof (AG n) as AN. destruct (handle s n) as [[k p]|] eqn:HN; [|congruence]. unfold agree1 in AN.
    destruct (lookup n c) as [f|] eqn:L; destruct (content s n) as [d|] eqn:CN; try contradiction; try discriminate.
    destruct AN as (D & C & P). cbn [mstep file_step forget_seek fst snd]. rewrite L. eexists. split; [reflexivity|].
    eapply agree_ext; [eapply agree_store with (d := d) (h := None); eauto; [congruence|cbn; auto]| |]; intro j; cbn [content handle]; auto.
    symmetry. apply set_id. auto.
  - cbn [mstep file_step forget_seek fst snd]. eexists. split; [reflexivity|]. intro j. rewrite lookup_remove. cbn [content handle]. unfold set. destruct (Nat.eqb_spec j n); [subst; cbn; auto|apply AG].
Qed.
Lemma run_ok : forall l c s, agree c s -> ordinary_run l s -> exists c', mrun None l c = (c', expected l s) /\ agree c' (fst (file_run l s)).
Proof.
  induction l as [|[now o] l IH]; intros c s AG O; cbn [mrun file_run ordinary_run] in *; [exists c; auto|]. destruct O as [O1 O2].
  destruct (step_ok now o c s AG O1) as (c1 & E1 & AG1). destruct (IH c1 _ AG1 O2) as (c2 & E2 & AG2). exists c2. rewrite E1, E2.
  unfold expected. cbn [file_run]. destruct (file_step o s) as [s1 a]. cbn [fst snd] in *. destruct (file_run l s1) as [s2 as_] eqn:FR. cbn [fst snd] in *.
  split; [reflexivity|auto].
Qed.
Lemma agree_start : agree [] no_files.
Proof. intro n. reflexivity. Qed.
