(** Proofs about the visibility containers. *)
From Coq Require Import String List ZArith QArith Qcanon Sorted Permutation Bool Lia.
From Verif Require Import M_Vis S_Vis P_Base.
Import ListNotations.
Open Scope Z_scope.

(** ** Taking rows *)
Lemma py_index_map : forall A B (f : A -> B) l i,
  py_index (map f l) i = bind (py_index l i) (fun x => Ok (f x)).
Proof.
  intros A B f l i. unfold py_index. rewrite zlen_map, nth_error_map.
  destruct (nth_error l (Z.to_nat (if i <? 0 then i + zlen l else i))); simpl; auto.
  destruct ((if i <? 0 then i + zlen l else i) <? 0); auto.
Qed.

Lemma take_map : forall A B (f : A -> B) l o, take (map f l) o = bind (take l o) (fun t => Ok (map f t)).
Proof.
  intros A B f l o. unfold take. induction o as [|i o IH]; simpl; auto.
  rewrite py_index_map. destruct (py_index l i) as [x|e]; simpl; auto.
  rewrite IH. destruct (collect (map (py_index l) o)); reflexivity.
Qed.

Lemma py_index_pos : forall A (l : list A) i,
  py_index l i = match nth_error l (Z.to_nat (position (zlen l) i)) with
                 | Some x => if position (zlen l) i <? 0 then Raise IndexError else Ok x
                 | None => Raise IndexError end.
Proof. reflexivity. Qed.

Lemma py_index_valid : forall A (l : list A) i, - zlen l <= i < zlen l ->
  exists x, py_index l i = Ok x /\ nth_error l (Z.to_nat (position (zlen l) i)) = Some x.
Proof.
  intros A l i H. rewrite py_index_pos. unfold position in *.
  assert (R : 0 <= (if i <? 0 then i + zlen l else i) < zlen l) by (destruct (Z.ltb_spec i 0); lia).
  destruct (nth_error l (Z.to_nat (if i <? 0 then i + zlen l else i))) as [x|] eqn:E.
  - exists x. destruct (Z.ltb_spec (if i <? 0 then i + zlen l else i) 0); [lia|]. auto.
  - apply nth_error_None in E. unfold zlen in *. lia.
Qed.

Lemma py_index_invalid : forall A (l : list A) i, ~ (- zlen l <= i < zlen l) -> py_index l i = Raise IndexError.
Proof.
  intros A l i H. rewrite py_index_pos. unfold position in *.
  destruct (nth_error l (Z.to_nat (if i <? 0 then i + zlen l else i))) as [x|] eqn:E; auto.
  assert (L : (Z.to_nat (if (i <? 0)%Z then i + zlen l else i) < length l)%nat) by (apply nth_error_Some; congruence).
  destruct (Z.ltb_spec (if i <? 0 then i + zlen l else i) 0); auto.
  exfalso. apply H. unfold zlen in *. destruct (Z.ltb_spec i 0); lia.
Qed.

Lemma take_valid : forall (t : list row) o, valid_order (zlen t) o -> exists t', take t o = Ok t' /\ picks t o t'.
Proof.
  intros t o V. unfold picks, take. fold (zlen t). induction o as [|i o IH]; simpl.
  - exists []. auto.
  - inversion V as [|? ? H1 H2]; subst. destruct (py_index_valid _ t i H1) as (x & E & N).
    destruct (IH H2) as (t' & E' & N'). rewrite E. simpl. rewrite E'. exists (x :: t'). split; auto.
    simpl. rewrite N', N. reflexivity.
Qed.

Lemma take_invalid : forall A (l : list A) o, ~ valid_order (zlen l) o -> take l o = Raise IndexError.
Proof.
  intros A l o. unfold take. induction o as [|i o IH]; intro V; simpl.
  - exfalso. apply V. constructor.
  - destruct (Z_le_dec (- zlen l) i) as [H1|H1]; [destruct (Z_lt_dec i (zlen l)) as [H2|H2]|].
    + destruct (py_index_valid _ l i (conj H1 H2)) as (x & E & _). rewrite E. simpl. rewrite IH; auto.
      intro W. apply V. constructor; auto.
    + rewrite py_index_invalid by lia. reflexivity.
    + rewrite py_index_invalid by lia. reflexivity.
Qed.

Lemma take_length : forall A (l : list A) o l', take l o = Ok l' -> length l' = length o.
Proof.
  intros A l o. unfold take. induction o as [|i o IH]; intros l' H; simpl in *.
  - inversion H. auto.
  - destruct (py_index l i); simpl in H; [|discriminate].
    destruct (collect (map (py_index l) o)) eqn:E; simpl in H; [|discriminate].
    inversion H. simpl. rewrite (IH _ eq_refl). auto.
Qed.

Lemma picks_In : forall t o t' r, picks t o t' -> In r t' -> In r t.
Proof.
  intros t o t' r P I. apply (in_map Some) in I. rewrite P in I.
  apply in_map_iff in I. destruct I as (i & E & _). eapply nth_error_In; eauto.
Qed.

Lemma take_In : forall A (l : list A) o l' x, take l o = Ok l' -> In x l' -> In x l.
Proof.
  intros A l o. unfold take. induction o as [|i o IH]; intros l' x H I; simpl in *.
  - inversion H. subst. contradiction.
  - destruct (py_index l i) eqn:E1; simpl in H; [|discriminate].
    destruct (collect (map (py_index l) o)) eqn:E; simpl in H; [|discriminate].
    inversion H. subst. destruct I as [I|I]; eauto. subst.
    rewrite py_index_pos in E1. destruct (nth_error l (Z.to_nat (position (zlen l) i))) eqn:N; [|discriminate].
    destruct (position (zlen l) i <? 0); [discriminate|]. inversion E1. subst. eapply nth_error_In; eauto.
Qed.

(** ** The heap *)
Lemma upd_length : forall A (l : list A) k x, length (upd l k x) = length l.
Proof. induction l as [|y l IH]; intros [|k] x; simpl; auto. Qed.

Lemma upd_same : forall A (l : list A) k x, (k < length l)%nat -> nth_error (upd l k x) k = Some x.
Proof. induction l as [|y l IH]; intros [|k] x H; simpl in *; try lia; auto. apply IH. lia. Qed.

Lemma upd_other : forall A (l : list A) k j x, j <> k -> nth_error (upd l k x) j = nth_error l j.
Proof. induction l as [|y l IH]; intros [|k] [|j] x H; simpl in *; try congruence; auto. Qed.

Lemma nth_error_lt : forall A (l : list A) k x, nth_error l k = Some x -> (k < length l)%nat.
Proof. intros. apply nth_error_Some. congruence. Qed.

Lemma nth_error_snoc : forall A (l : list A) x k, (k < length l)%nat -> nth_error (l ++ [x]) k = nth_error l k.
Proof. intros. apply nth_error_app1. auto. Qed.

Lemma nth_error_last : forall A (l : list A) x, nth_error (l ++ [x]) (length l) = Some x.
Proof. intros. rewrite nth_error_app2 by lia. rewrite Nat.sub_diag. reflexivity. Qed.

(** ** One polarization *)
Definition column (name : string) (t : list row) (k : nat) : pds :=
  mkP name (map (fun x => fst (fst (cell_at k x))) t) (map (fun x => snd (fst (cell_at k x))) t)
    (map (fun x => snd (cell_at k x)) t).

Lemma pds_sort_column : forall n t k o t', take t o = Ok t' -> length o = length t ->
  pds_sort (column n t k) o = (column n t' k, Ok tt).
Proof.
  intros n t k o t' E L. unfold pds_sort, column. simpl. rewrite !take_map, E. simpl.
  rewrite zlen_map. unfold zlen. rewrite L, Z.eqb_refl. reflexivity.
Qed.

Lemma pds_sort_short : forall n t k o, length o <> length t -> pds_sort (column n t k) o = (column n t k, Raise ValueError).
Proof.
  intros n t k o L. unfold pds_sort, column. simpl. rewrite zlen_map. unfold zlen.
  destruct (Z.eqb_spec (Z.of_nat (length o)) (Z.of_nat (length t))); [lia|]. reflexivity.
Qed.

Lemma pds_subset_column : forall n t k o t', upper n = n -> take t o = Ok t' ->
  pds_subset (column n t k) o = Ok (column n t' k).
Proof.
  intros n t k o t' U E. unfold pds_subset, column. simpl. rewrite !take_map, E. simpl.
  unfold new_pds. rewrite U. reflexivity.
Qed.

Lemma pds_copy_column : forall n t k, upper n = n -> pds_copy (column n t k) = column n t k.
Proof. intros n t k U. unfold pds_copy, new_pds. simpl. rewrite U. reflexivity. Qed.

Section V.
Context {PC : Type}.
Implicit Types v w c : vds PC.

Lemma shows_col : forall h v names t k name r, shows h v names t -> nth_error (v_pols v) k = Some (name, r) ->
  upper name = name /\ nth_error (hp h) r = Some (column name t k).
Proof. intros h v names t k name r (_ & _ & _ & _ & _ & H) E. apply H in E. auto. Qed.

Lemma shows_refs : forall h v names t, shows h v names t -> NoDup (map snd (v_pols v)).
Proof.
  intros h v names t S. pose proof S as (_ & _ & N & D & _ & _).
  rewrite NoDup_nth_error. intros i j Li E. rewrite map_length in Li.
  rewrite !nth_error_map in E.
  destruct (nth_error (v_pols v) i) as [[n r]|] eqn:Ei; [|apply nth_error_None in Ei; lia].
  destruct (nth_error (v_pols v) j) as [[m q]|] eqn:Ej; [|simpl in E; discriminate].
  simpl in E. inversion E. subst q.
  destruct (shows_col _ _ _ _ _ _ _ S Ei) as (_ & Hi). destruct (shows_col _ _ _ _ _ _ _ S Ej) as (_ & Hj).
  rewrite Hi in Hj. inversion Hj. subst m. rewrite <- N in D.
  rewrite NoDup_nth_error in D. apply D; [rewrite map_length; auto|].
  rewrite !nth_error_map, Ei, Ej. reflexivity.
Qed.

Lemma shows_in_heap : forall h v names t n r, shows h v names t -> In (n, r) (v_pols v) -> (r < length (hp h))%nat.
Proof.
  intros h v names t n r S I. apply In_nth_error in I. destruct I as (k & E).
  destruct (shows_col _ _ _ _ _ _ _ S E) as (_ & H). eapply nth_error_lt; eauto.
Qed.

(** What is left alone by a change: a data set shows the same table when its
    objects are the same. *)
Lemma shows_frame : forall h h' v names t, shows h v names t ->
  nth_error (ha h') (v_uvw v) = nth_error (ha h) (v_uvw v) ->
  (forall n r, In (n, r) (v_pols v) -> nth_error (hp h') r = nth_error (hp h) r) ->
  shows h' v names t.
Proof.
  intros h h' v names t S A P. pose proof S as (B & U & N & D & L & H).
  repeat (split; auto); try congruence.
  - apply H in H0. apply H0.
  - apply H in H0 as X. destruct X as (_ & X). rewrite (P name r); auto. eapply nth_error_In; eauto.
Qed.

(** ** Sorting *)
Lemma sort_pols_ok : forall l h o (q : nat -> pds),
  NoDup (map snd l) ->
  (forall n r, In (n, r) l -> exists p, nth_error (hp h) r = Some p /\ pds_sort p o = (q r, Ok tt)) ->
  exists h', sort_pols h l o = (h', Ok tt) /\ ha h' = ha h /\ length (hp h') = length (hp h) /\
    (forall r, ~ In r (map snd l) -> nth_error (hp h') r = nth_error (hp h) r) /\
    (forall n r, In (n, r) l -> nth_error (hp h') r = Some (q r)).
Proof.
  induction l as [|[n r] l IH]; intros h o q ND H; simpl.
  - exists h. repeat split; auto. intros ? ? [].
  - inversion ND as [|? ? NI ND']; subst. simpl in *.
    destruct (H n r (or_introl eq_refl)) as (p & E & S). rewrite E, S.
    destruct (IH (set_pol h r (q r)) o q ND') as (h' & R & A & L & O & Q).
    { intros m s I. destruct (H m s (or_intror I)) as (p' & E' & S'). exists p'. split; auto.
      simpl. rewrite upd_other; auto. intro. subst. apply NI. apply (in_map snd) in I. auto. }
    exists h'. split; auto. split; [auto|]. simpl in *. rewrite upd_length in L. split; [auto|]. split.
    + intros s NS. rewrite O by tauto. apply upd_other. intro. subst. tauto.
    + intros m s [I|I].
      * inversion I. subst. rewrite O by auto. apply upd_same. eapply nth_error_lt; eauto.
      * eapply Q; eauto.
Qed.

(** A change by sort leaves everything alone but the polarizations of the data set. *)
Lemma sort_pols_frame : forall l h o, ha (fst (sort_pols h l o)) = ha h /\
  length (hp (fst (sort_pols h l o))) = length (hp h) /\
  forall r, ~ In r (map snd l) -> nth_error (hp (fst (sort_pols h l o))) r = nth_error (hp h) r.
Proof.
  induction l as [|[n r] l IH]; intros h o; simpl; auto.
  destruct (nth_error (hp h) r) as [p|] eqn:E; simpl; auto.
  destruct (pds_sort p o) as [p' [[]|e]]; simpl.
  - destruct (IH (set_pol h r p') o) as (A & L & O). rewrite A, L. simpl. rewrite upd_length. repeat split; auto.
    intros s NS. rewrite O by tauto. simpl. apply upd_other. intro. subst. tauto.
  - rewrite upd_length. repeat split; auto. intros s NS. apply upd_other. intro. subst. tauto.
Qed.

Lemma vds_sort_rows : forall h v names t o t', shows h v names t ->
  take t o = Ok t' -> length o = length t \/ names = [] ->
  exists h' v', vds_sort h v (Some o) = (h', v', Ok tt) /\ shows h' v' names t' /\ same_rest v v' /\ v_pols v' = v_pols v.
Proof.
  intros h v names t o t' S E L. pose proof S as (B & U & N & D & C & H).
  unfold vds_sort. rewrite B, take_map, E. simpl. rewrite U, take_map, E. simpl.
  set (h1 := mkH (hp h) (ha h ++ [map r_uvw t'])).
  assert (X : exists h', sort_pols h1 (v_pols v) o = (h', Ok tt) /\ ha h' = ha h1 /\
     (forall k name r, nth_error (v_pols v) k = Some (name, r) -> nth_error (hp h') r = Some (column name t' k))).
  { destruct L as [L|L].
    - assert (Q : forall l, (forall n r, In (n, r) l -> exists k, nth_error (v_pols v) k = Some (n, r)) ->
               exists q : nat -> pds, forall n r, In (n, r) l -> forall k, nth_error (v_pols v) k = Some (n, r) -> q r = column n t' k).
      { intros l I. induction l as [|[n r] l IH].
        - exists (fun _ => mkP "" [] [] []). intros ? ? [].
        - destruct IH as (q & Q). { intros m s J. apply I. right. auto. }
          destruct (I n r (or_introl eq_refl)) as (k & K).
          exists (fun s => if (s =? r)%nat then column n t' k else q s).
          intros m s [J|J] k' K'.
          + inversion J. subst. rewrite Nat.eqb_refl. f_equal.
            pose proof (shows_refs _ _ _ _ S) as ND. rewrite NoDup_nth_error in ND. apply ND.
            * rewrite map_length. eapply nth_error_lt; eauto.
            * rewrite !nth_error_map, K, K'. reflexivity.
          + destruct (Nat.eqb_spec s r) as [->|]; [|eauto].
            pose proof (shows_refs _ _ _ _ S) as ND. rewrite NoDup_nth_error in ND.
            assert (k = k') as ->.
            { apply ND; [rewrite map_length; eapply nth_error_lt; eauto|]. rewrite !nth_error_map, K, K'. reflexivity. }
            rewrite K in K'. inversion K'. subst. reflexivity. }
      destruct (Q (v_pols v)) as (q & Hq). { intros n r I. apply In_nth_error in I. auto. }
      destruct (sort_pols_ok (v_pols v) h1 o q) as (h' & R & A & _ & _ & F).
      + eapply shows_refs; eauto.
      + intros n r I. pose proof I as J. apply In_nth_error in J. destruct J as (k & K).
        destruct (shows_col _ _ _ _ _ _ _ S K) as (_ & P). exists (column n t k). split; [exact P|].
        rewrite (Hq n r I k K). apply pds_sort_column; auto.
      + exists h'. split; auto. split; auto. intros k n r K. rewrite (F n r) by (eapply nth_error_In; eauto).
        f_equal. eapply Hq; eauto. eapply nth_error_In; eauto.
    - rewrite L in N. destruct (v_pols v); [|discriminate N]. exists h1. repeat split; auto. intros [|?] ? ? K; discriminate K. }
  destruct X as (h' & R & A & F). rewrite R. exists h', (with_uvw (with_bl v (map r_bl t')) (length (ha h))).
  split; auto. split; [|split; [repeat split|auto]].
  repeat split; auto; simpl.
  - rewrite A. simpl. apply nth_error_last.
  - rewrite Forall_forall in *. intros x I. apply C. eapply take_In; eauto.
  - apply H in H0. apply H0.
  - apply F. auto.
Qed.

Lemma vds_sort_frame : forall h v o,
  let h' := fst (fst (vds_sort h v o)) in let v' := snd (fst (vds_sort h v o)) in
  v_pols v' = v_pols v /\ (v_uvw v' = v_uvw v \/ (v_uvw v' >= length (ha h))%nat) /\
  length (hp h') = length (hp h) /\ (length (ha h) <= length (ha h'))%nat /\
  (forall a, (a < length (ha h))%nat -> nth_error (ha h') a = nth_error (ha h) a) /\
  (forall r, ~ In r (map snd (v_pols v)) -> nth_error (hp h') r = nth_error (hp h) r).
Proof.
  intros h v o. unfold vds_sort. set (oo := match o with Some l => l | None => baseline_order v end).
  destruct (take (v_bl v) oo) as [b|e]; simpl; [|repeat split; auto].
  destruct (take match nth_error (ha h) (v_uvw v) with Some a => a | None => [] end oo) as [a|e]; simpl; [|repeat split; auto].
  pose proof (sort_pols_frame (v_pols v) (mkH (hp h) (ha h ++ [a])) oo) as (A & L & F).
  destruct (sort_pols {| hp := hp h; ha := ha h ++ [a] |} (v_pols v) oo) as [h' out]. simpl in *.
  repeat split; auto.
  - rewrite A, app_length. lia.
  - intros k K. rewrite A. apply nth_error_snoc. auto.
Qed.

(** ** Appending polarizations *)
Lemma set_name_new : forall l n r, ~ In n (map fst l) -> set_name l n r = l ++ [(n, r)].
Proof.
  induction l as [|[m q] l IH]; intros n r H; simpl in *; auto.
  destruct (String.eqb_spec m n); [tauto|]. rewrite IH; auto.
Qed.

Fixpoint refs_from (k : nat) (names : list string) : list (string * nat) :=
  match names with [] => [] | n :: l => (n, k) :: refs_from (S k) l end.

Lemma append_each_ok : forall l h v, NoDup (map fst (v_pols v) ++ map p_pol l) ->
  Forall (fun p => upper (p_pol p) = p_pol p /\ zlen (p_data p) = nbaseline v) l ->
  append_each h v (map Ok l) =
    (mkH (hp h ++ l) (ha h), Ok (with_pols v (v_pols v ++ refs_from (length (hp h)) (map p_pol l)))).
Proof.
  induction l as [|p l IH]; intros h v ND F; simpl.
  - rewrite !app_nil_r. destruct h, v; reflexivity.
  - inversion F as [|? ? (U & Z) F']; subst. unfold append. simpl. rewrite nth_error_last, Z, Z.eqb_refl. simpl.
    rewrite U, set_name_new.
    + rewrite IH.
      * simpl. rewrite app_length, <- !app_assoc. simpl.
        replace (length (hp h) + 1)%nat with (S (length (hp h))) by lia. destruct v; reflexivity.
      * simpl. rewrite map_app, <- app_assoc. exact ND.
      * auto.
    + simpl in ND. apply NoDup_remove_2 in ND. intro I. apply ND. apply in_or_app. auto.
Qed.

Lemma refs_from_nth : forall names k i n r, nth_error (refs_from k names) i = Some (n, r) ->
  r = (k + i)%nat /\ nth_error names i = Some n.
Proof.
  induction names as [|m names IH]; intros k [|i] n r H; simpl in *; try discriminate.
  - inversion H. subst. split; [lia|auto].
  - apply IH in H. destruct H as (-> & H). split; [lia|auto].
Qed.

Lemma refs_from_fst : forall names k, map fst (refs_from k names) = names.
Proof. induction names; intros; simpl; f_equal; auto. Qed.

Lemma refs_from_ge : forall names k n r, In (n, r) (refs_from k names) -> (k <= r)%nat.
Proof.
  induction names as [|m names IH]; intros k n r H; simpl in *; [tauto|].
  destruct H as [H|H]; [inversion H; lia|]. apply IH in H. lia.
Qed.

(** The polarizations of a data set as columns *)
Definition columns (names : list string) (t : list row) : list pds :=
  map (fun kn => column (snd kn) t (fst kn)) (combine (seq 0 (length names)) names).

Lemma nth_error_seq' : forall n s k, (k < n)%nat -> nth_error (seq s n) k = Some (s + k)%nat.
Proof.
  induction n as [|n IH]; intros s [|k] H; simpl; try lia; [f_equal; lia|]. rewrite IH by lia. f_equal. lia.
Qed.

Lemma nth_error_combine : forall A B (l : list A) (m : list B) k,
  nth_error (combine l m) k = match nth_error l k, nth_error m k with Some x, Some y => Some (x, y) | _, _ => None end.
Proof.
  induction l as [|x l IH]; intros [|y m] [|k]; simpl; auto. destruct (nth_error l k); auto.
Qed.

Lemma columns_nth : forall names t k n, nth_error names k = Some n -> nth_error (columns names t) k = Some (column n t k).
Proof.
  intros names t k n H. unfold columns. rewrite nth_error_map, nth_error_combine, H.
  rewrite nth_error_seq' by (eapply nth_error_lt; eauto). reflexivity.
Qed.

Lemma columns_length : forall names t, length (columns names t) = length names.
Proof. intros. unfold columns. rewrite map_length, combine_length, seq_length. lia. Qed.

Lemma nth_error_ext' : forall A (l m : list A), (forall k, nth_error l k = nth_error m k) -> l = m.
Proof.
  induction l as [|x l IH]; intros [|y m] H; auto.
  - specialize (H 0%nat). discriminate H.
  - specialize (H 0%nat). discriminate H.
  - pose proof (H 0%nat) as H0. simpl in H0. inversion H0. f_equal. apply IH. intro k. apply (H (S k)).
Qed.

Lemma columns_names : forall names t, map p_pol (columns names t) = names.
Proof.
  intros names t. apply nth_error_ext'. intro k. rewrite nth_error_map.
  destruct (nth_error names k) as [n|] eqn:E.
  - rewrite (columns_nth _ _ _ _ E). reflexivity.
  - apply nth_error_None in E. assert (X : nth_error (columns names t) k = None) by (apply nth_error_None; rewrite columns_length; auto).
    rewrite X. reflexivity.
Qed.

Lemma pols_columns : forall h v names t, shows h v names t -> pols_of h v = map Some (columns names t).
Proof.
  intros h v names t S. pose proof S as (_ & _ & N & _ & _ & _). unfold pols_of. apply nth_error_ext'. intro k.
  rewrite !nth_error_map. destruct (nth_error (v_pols v) k) as [[n r]|] eqn:E; simpl.
  - destruct (shows_col _ _ _ _ _ _ _ S E) as (_ & P). rewrite P.
    assert (X : nth_error names k = Some n) by (rewrite <- N, nth_error_map, E; reflexivity).
    rewrite (columns_nth _ _ _ _ X). reflexivity.
  - assert (X : nth_error (columns names t) k = None).
    { apply nth_error_None. rewrite columns_length, <- N, map_length. apply nth_error_None. auto. }
    rewrite X. reflexivity.
Qed.

Lemma shows_upper : forall h v names t n, shows h v names t -> In n names -> upper n = n.
Proof.
  intros h v names t n S I. pose proof S as (_ & _ & N & _ & _ & H). rewrite <- N in I.
  apply in_map_iff in I. destruct I as ([m r] & E & I). simpl in E. subst m.
  apply In_nth_error in I. destruct I as (k & K). apply H in K. apply K.
Qed.

(** A data set made of new columns shows their table. *)
Lemma shows_new : forall h v names t a (u : nat),
  v_bl v = map r_bl t -> NoDup names -> (forall n, In n names -> upper n = n) ->
  Forall (fun r => length (r_cells r) = length names) t ->
  nth_error a (v_uvw v) = Some (map r_uvw t) ->
  shows (mkH (hp h ++ columns names t) a) (with_pols v (refs_from (length (hp h)) names)) names t.
Proof.
  intros h v names t a u B D UP L A. repeat split; simpl; auto.
  - apply refs_from_fst.
  - apply UP. apply refs_from_nth in H. destruct H as (_ & H). eapply nth_error_In; eauto.
  - apply refs_from_nth in H. destruct H as (-> & H).
    rewrite nth_error_app2 by lia. replace (length (hp h) + k - length (hp h))%nat with k by lia.
    apply (columns_nth _ _ _ _ H).
Qed.

Lemma each_columns : forall f names t t', (forall n k, In n names -> f (column n t k) = Ok (column n t' k)) ->
  each f (map Some (columns names t)) = map Ok (columns names t').
Proof.
  intros f names t t' H. unfold each. rewrite map_map. apply nth_error_ext'. intro k. rewrite !nth_error_map.
  destruct (nth_error names k) as [n|] eqn:E.
  - rewrite !(columns_nth _ _ _ _ E). simpl. rewrite H; auto. eapply nth_error_In; eauto.
  - apply nth_error_None in E.
    assert (X : forall t, nth_error (columns names t) k = None) by (intro; apply nth_error_None; rewrite columns_length; auto).
    rewrite !X. reflexivity.
Qed.

Lemma columns_ok : forall names t (z : Z), (forall n, In n names -> upper n = n) -> z = zlen t ->
  Forall (fun p => upper (p_pol p) = p_pol p /\ zlen (p_data p) = z) (columns names t).
Proof.
  intros names t z U ->. apply Forall_forall. intros p I. unfold columns in I. apply in_map_iff in I.
  destruct I as ([k n] & <- & I). simpl. split.
  - apply U. apply in_combine_r in I. auto.
  - apply zlen_map.
Qed.

(** New data sets share nothing with old ones. *)
Definition fresh_from (h : heap) c : Prop :=
  (length (ha h) <= v_uvw c)%nat /\ forall n r, In (n, r) (v_pols c) -> (length (hp h) <= r)%nat.
Definition grows (h h' : heap) : Prop := exists p a, h' = mkH (hp h ++ p) (ha h ++ a).

Lemma grows_shows : forall h h' v names t, grows h h' -> shows h v names t -> shows h' v names t.
Proof.
  intros h h' v names t (p & a & ->) S. eapply shows_frame; eauto; simpl.
  - pose proof S as (_ & U & _). apply nth_error_app1. eapply nth_error_lt; eauto.
  - intros n r I. apply nth_error_app1. eapply shows_in_heap; eauto.
Qed.

Lemma fresh_separate : forall h c v names t, fresh_from h c -> shows h v names t -> separate c v /\ separate v c.
Proof.
  intros h c v names t (A & P) S. pose proof S as (_ & U & _). apply nth_error_lt in U. repeat split; try lia.
  - intros n r m I J. apply P in I. eapply shows_in_heap in J; eauto. lia.
  - intros n r m I J. apply P in J. eapply shows_in_heap in I; eauto. lia.
Qed.

Lemma copy_bare_eq : forall h v names t, shows h v names t ->
  copy_bare h v = (mkH (hp h) (ha h ++ [map r_uvw t]),
    mkV (v_jd v) (v_freq v) (v_bl v) (length (ha h)) (v_aa v) (v_pc v) [] (v_extra v)).
Proof. intros h v names t (B & U & _). unfold copy_bare. rewrite U. reflexivity. Qed.

Lemma copy_ok : forall h v names t, shows h v names t ->
  exists h' c, copy h v true = (h', Ok c) /\ shows h' c names t /\ same_rest v c /\ fresh_from h c /\ grows h h'.
Proof.
  intros h v names t S. pose proof S as (B & U & N & D & L & H).
  unfold copy. rewrite (copy_bare_eq _ _ _ _ S), (pols_columns _ _ _ _ S).
  rewrite (each_columns _ names t t).
  2:{ intros n k I. rewrite pds_copy_column; auto. eapply shows_upper; eauto. }
  rewrite append_each_ok.
  - simpl. rewrite columns_names. eexists _, _. split; [reflexivity|]. split; [|split; [repeat split|split]].
    + apply (shows_new h (mkV (v_jd v) (v_freq v) (v_bl v) (length (ha h)) (v_aa v) (v_pc v) [] (v_extra v)) names t _ 0%nat); auto.
      * intros n I. eapply shows_upper; eauto.
      * simpl. apply nth_error_last.
    + split; simpl; auto. intros n r I. apply refs_from_ge in I. auto.
    + eexists _, _. reflexivity.
  - simpl. rewrite columns_names. auto.
  - apply columns_ok; [intros n I; eapply shows_upper; eauto|]. unfold nbaseline. simpl. rewrite B. apply zlen_map.
Qed.

Lemma copy_bare_ok : forall h v names t, shows h v names t ->
  exists h' c, copy h v false = (h', Ok c) /\ v_bl c = v_bl v /\ nth_error (ha h') (v_uvw c) = Some (map r_uvw t) /\
    v_pols c = [] /\ same_rest v c /\ fresh_from h c /\ grows h h'.
Proof.
  intros h v names t S. unfold copy. rewrite (copy_bare_eq _ _ _ _ S). eexists _, _. split; [reflexivity|].
  split; [reflexivity|]. split; [apply nth_error_last|]. repeat split; simpl; auto.
  - intros n r [].
  - exists [], [map r_uvw t]. rewrite app_nil_r. reflexivity.
Qed.

Lemma selected_ok : forall h v names t o t', shows h v names t -> take t o = Ok t' ->
  exists h' c, selected h v o = (h', Ok c) /\ shows h' c names t' /\ same_rest v c /\ fresh_from h c /\ grows h h'.
Proof.
  intros h v names t o t' S E. pose proof S as (B & U & N & D & L & H).
  unfold selected. rewrite B, take_map, E, (copy_bare_eq _ _ _ _ S), U, take_map, E, (pols_columns _ _ _ _ S). simpl.
  rewrite (each_columns _ names t t').
  2:{ intros n k I. apply pds_subset_column; auto. eapply shows_upper; eauto. }
  rewrite append_each_ok.
  - simpl. rewrite columns_names. eexists _, _. split; [reflexivity|]. split; [|split; [repeat split|split]].
    + apply (shows_new h (mkV (v_jd v) (v_freq v) (map r_bl t') (length (ha h ++ [map r_uvw t])) (v_aa v) (v_pc v) [] (v_extra v)) names t' _ 0%nat); auto.
      * intros n I. eapply shows_upper; eauto.
      * rewrite Forall_forall in *. intros x I. apply L. eapply take_In; eauto.
      * simpl. apply nth_error_last.
    + split; simpl; [rewrite app_length; lia|]. intros n r I. apply refs_from_ge in I. auto.
    + exists (columns names t'), ([map r_uvw t] ++ [map r_uvw t']). simpl. rewrite <- app_assoc. reflexivity.
  - simpl. rewrite columns_names. auto.
  - apply columns_ok; [intros n I; eapply shows_upper; eauto|]. unfold nbaseline. simpl. apply zlen_map.
Qed.

(** ** Picking the rows that satisfy a test *)
Lemma take_where_shift : forall A (l : list A) (f : A -> bool) (pre : list A),
  take (pre ++ l) (map snd (filter fst (enumerate_from (zlen pre) (map f l)))) = Ok (filter f l).
Proof.
  induction l as [|x l IH]; intros f pre; simpl; auto.
  assert (X : take (pre ++ x :: l) (map snd (filter fst (enumerate_from (zlen pre + 1) (map f l)))) = Ok (filter f l)).
  { specialize (IH f (pre ++ [x])). rewrite <- app_assoc in IH. simpl in IH.
    replace (zlen (pre ++ [x])) with (zlen pre + 1) in IH by (rewrite zlen_app; reflexivity). exact IH. }
  destruct (f x); simpl; auto.
  unfold take in *. simpl. rewrite X.
  assert (Y : py_index (pre ++ x :: l) (zlen pre) = Ok x).
  { rewrite py_index_pos. unfold position. pose proof (zlen_nonneg pre).
    destruct (Z.ltb_spec (zlen pre) 0); [lia|]. unfold zlen at 1. rewrite Nat2Z.id.
    rewrite nth_error_app2 by lia. rewrite Nat.sub_diag. simpl.
    destruct (Z.ltb_spec (zlen pre) 0); [lia|]. reflexivity. }
  rewrite Y. reflexivity.
Qed.

Lemma take_where : forall A (l : list A) f, take l (where_ (map f l)) = Ok (filter f l).
Proof. intros A l f. apply (take_where_shift A l f []). Qed.

Lemma filter_rows_with : forall (P : row -> Prop) f t, (forall r, In r t -> f r = true <-> P r) -> rows_with P t (filter f t).
Proof.
  intros P f t. induction t as [|r t IH]; intro H; simpl; [constructor|].
  assert (X : rows_with P t (filter f t)) by (apply IH; intros; apply H; right; auto).
  destruct (f r) eqn:E; constructor; auto.
  - apply H; simpl; auto.
  - intro K. apply H in K; simpl; auto. congruence.
Qed.
End V.
